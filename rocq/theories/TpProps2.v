(** C310: JWTVCToJSON.  verifiable/credential.go:2112-2119. *)
From Verif Require Import GoBase Base64 StatusModel PexModel StrLemmas JwtSpec DiSpec VcSpec JwtModel SdSpec SdModel SdParse DiModel VcModel VcJwt VcParse VcProofs VcView VcText VcSecure
  JwtProps VcProps VcProps2 VcProps4 OpModel OpSpec OpProps.

(** bytes.Trim with the set that JWTVCToJSON gives: quotation mark, apostrophe, space *)
Definition cut (c : ascii) : bool := Ascii.eqb c (Ascii.ascii_of_nat 34) || Ascii.eqb c (Ascii.ascii_of_nat 39) || Ascii.eqb c (Ascii.ascii_of_nat 32).
Fixpoint trim_front (s : string) : string := match s with String c s' => if cut c then trim_front s' else s | "" => "" end.
Fixpoint trim_back (s : string) : string :=
  match s with
  | String c s' => match trim_back s' with "" => if cut c then "" else String c "" | t => String c t end
  | "" => ""
  end.
Definition bytes_trim (s : string) : string := trim_back (trim_front s).
(** verifiable/credential.go:2113-2119 JWTVCToJSON *)
Definition jwt_vc_to_json (E : venv) (vc : string) : res (gomap json) := rmap snd (decode_cred_jwt (ve_time E) (ve_jwt E) (ve_members E) (bytes_trim vc)).

(** a JWT that does not begin or end with a quotation mark, apostrophe or space, and has no disclosures *)
Record plain_jwt (E : venv) (tok : string) : Prop := {
  pj_jwt : is_jws (ve_obj E) tok = true \/ is_jwt_unsecured (ve_obj E) tok = true;
  pj_first : forall c s, tok = String c s -> ~ In c ["034"; "'"; " "]%char;
  pj_last : forall c s, tok = s ++ String c "" -> ~ In c ["034"; "'"; " "]%char;
  pj_tilde : forall a b, tok <> a ++ String "~" b }.

Lemma cut_in c : cut c = true <-> In c ["034"; "'"; " "]%char.
Proof. unfold cut. rewrite !orb_true_iff, !Ascii.eqb_eq. cbn. intuition congruence. Qed.
Lemma cut_nin c : ~ In c ["034"; "'"; " "]%char -> cut c = false.
Proof. rewrite <- cut_in. destruct (cut c); intuition congruence. Qed.
Lemma trim_back_id s : (forall c t, s = t ++ String c "" -> cut c = false) -> trim_back s = s.
Proof.
  induction s as [|c s IH]; [reflexivity|]. intros H. cbn [trim_back]. rewrite IH; [|intros c' t ->; apply (H c' (String c t)); reflexivity].
  destruct s; [|reflexivity]. now rewrite (H c "" eq_refl).
Qed.
Lemma trim_back_cut s c : cut c = true -> (forall d t, s = t ++ String d "" -> cut d = false) -> trim_back (s ++ String c "") = s.
Proof.
  intros Hc. induction s as [|d s IH]; intros H; cbn [append trim_back]; [now rewrite Hc|].
  rewrite IH; [|intros c' t ->; apply (H c' (String d t)); reflexivity]. destruct s; [|reflexivity]. now rewrite (H d "" eq_refl).
Qed.
Lemma split_no_tilde s : (forall a b, s <> a ++ String "~" b) -> split_on tilde s = [s].
Proof.
  induction s as [|c s IH]; intros H; [reflexivity|]. cbn [split_on]. destruct (Ascii.eqb_spec c tilde) as [->|]; [exfalso; now apply (H "" s)|].
  rewrite IH; [reflexivity|]. intros a b ->. now apply (H (String c a) b).
Qed.
Lemma un_quote_plain tok : (forall c s, tok = String c s -> cut c = false) -> un_quote tok = tok.
Proof.
  intros H. destruct tok as [|c s]; [reflexivity|]. specialize (H c s eq_refl). unfold un_quote. unfold cut in H. apply orb_false_iff in H as [H _]. apply orb_false_iff in H as [H _].
  change quote_char with (Ascii.ascii_of_nat 34). rewrite H. now rewrite andb_false_r.
Qed.
Lemma jwt_not_empty E tok : is_jws (ve_obj E) tok = true \/ is_jwt_unsecured (ve_obj E) tok = true -> tok <> "".
Proof. intros [H|H] ->; cbn in H; discriminate. Qed.

(** C310: what JWTVCToJSON reads, without any check, from a JWT (bare or as a JSON string) is the document of the credential that ParseCredential accepts for the same text. *)
Theorem C310_jwt_json : forall (E : venv) (o : copts) tok d v, plain_jwt E tok -> (d = tok \/ d = String "034" (tok ++ String "034" "")) ->
  ve_members E d = None -> (is_jws (ve_obj E) tok = false -> co_external o = []) ->
  parse_credential E o d = Ok v -> jwt_vc_to_json E d = Ok (cr_json v).
Proof.
  intros E o tok d v [Hj Hf Hl Ht] Hd Hm Hx H.
  assert (Hfc : forall c s, tok = String c s -> cut c = false) by (intros c s Hc; apply cut_nin; eauto).
  assert (Hlc : forall c s, tok = s ++ String c "" -> cut c = false) by (intros c s Hc; apply cut_nin; eauto).
  assert (Hne : tok <> "") by (eapply jwt_not_empty; eauto).
  assert (Htr : bytes_trim d = tok).
  { unfold bytes_trim. assert (F : forall r, trim_front (tok ++ r) = tok ++ r) by (destruct tok as [|c s]; [contradiction|]; intros r; cbn [append trim_front]; now rewrite (Hfc c s eq_refl)).
    destruct Hd as [->| ->].
    - replace (trim_front tok) with tok by (destruct tok as [|c s]; [contradiction|]; cbn [trim_front]; now rewrite (Hfc c s eq_refl)). now apply trim_back_id.
    - cbn [trim_front]. change (cut "034") with true. cbv iota. rewrite F. now apply trim_back_cut. }
  assert (Hu : unwrap_string E d = tok).
  { unfold unwrap_string. rewrite Hm. destruct Hd as [->| ->]; [now apply un_quote_plain|apply un_quote_quoted]. }
  rewrite (parse_not_json _ _ _ Hm) in H. cbn [try_parsers] in H. apply bind_ok in H as (r & H & Hr). unfold parse_with in H. apply bind_ok in H as (p & Hp & H).
  unfold jwt_vc_to_json. rewrite Htr. unfold json_parser in Hp. rewrite Hu in Hp.
  assert (Etry : try_parse_jws E tok = if is_jws (ve_obj E) tok then {| jv_jws := true; jv_sd := false; jv_jwt := tok; jv_discs := []; jv_binding := "" |}
                                       else {| jv_jws := false; jv_sd := false; jv_jwt := ""; jv_discs := []; jv_binding := "" |}).
  { unfold try_parse_jws. rewrite split_no_tilde by assumption. cbn [List.length Nat.ltb Nat.leb]. reflexivity. }
  assert (Hdec : exists h m, decode_cred_jwt (ve_time E) (ve_jwt E) (ve_members E) tok = Ok (h, m) /\
    exists c ps je, p = Some {| cr_json := m; cr_contents := c; cr_proofs := ps; cr_jwt := je; cr_cwt := None |} /\ (is_jws (ve_obj E) tok = true -> je <> None)).
  { rewrite Etry in Hp. destruct (is_jws (ve_obj E) tok) eqn:Ej; cbn [jv_jws jv_jwt jv_discs jv_sd orb] in Hp.
    - apply bind_ok in Hp as (hm & Hh & Hp). apply bind_ok in Hh as (hm' & Hh & Hk). cbn [validate_disclosures bind] in Hk. injection Hk as <-. destruct hm' as [h m].
      exists h, m. split; [assumption|]. apply bind_ok in Hp as (c & _ & Hp). apply bind_ok in Hp as (ps & _ & Hp). cbn [bind] in Hp. apply bind_ok in Hp as (ds & _ & Hp). injection Hp as <-.
      eexists _, _, _. split; [reflexivity|]. discriminate.
    - destruct Hj as [Hj|Hj]; [discriminate|]. rewrite Hj in Hp. apply bind_ok in Hp as (hm & Hh & Hp).
      destruct (decode_cred_jwt (ve_time E) (ve_jwt E) (ve_members E) tok) as [[h m]| |] eqn:Ed; try discriminate Hh. injection Hh as <-.
      exists h, m. split; [reflexivity|]. apply bind_ok in Hp as (c & _ & Hp). apply bind_ok in Hp as (ps & _ & Hp). apply bind_ok in Hp as ([] & _ & Hp). apply bind_ok in Hp as (ds & _ & Hp). injection Hp as <-.
      eexists _, _, _. split; [reflexivity|]. discriminate. }
  destruct Hdec as (h & m & -> & c & ps & je & -> & Hje). cbn [rmap snd]. f_equal.
  apply bind_ok in H as (w & Hc & H). apply bind_ok in H as (x & _ & H). injection H as <-. injection Hr as ->.
  destruct (co_no_proof o); [now injection Hc as <-|]. apply check_cred_same in Hc as (_ & _ & _ & _ & [-> |(Hn & _ & Hne' & _)]); [reflexivity|].
  exfalso. cbn [cr_jwt] in Hn. destruct (is_jws (ve_obj E) tok) eqn:Ej; [now apply Hje|]. now rewrite Hx in Hne'.
Qed.
(** and it reads credentials whose proof is wrong *)
Example C310_example : plain_jwt ex_jenv (ex_tok "good") /\ ve_members ex_jenv (ex_tok "good") = None /\
  (exists v, parse_credential ex_jenv ex_copts (ex_tok "good") = Ok v /\ jwt_vc_to_json ex_jenv (ex_tok "good") = Ok (cr_json v)) /\
  is_ok (jwt_vc_to_json ex_jenv (ex_tok "bad")) = true /\ is_ok (parse_credential ex_jenv ex_copts (ex_tok "bad")) = false /\
  jwt_vc_to_json ex_jenv (" '" ++ ex_tok "good" ++ "' ") = jwt_vc_to_json ex_jenv (ex_tok "good").
Proof.
  split; [|split; [reflexivity|split; [eexists; split; vm_compute; reflexivity|split; [vm_compute; reflexivity|split; vm_compute; reflexivity]]]].
  constructor.
  - left. vm_compute. reflexivity.
  - intros c s H. vm_compute in H. injection H as <- _. cbn. intuition discriminate.
  - intros c s H.
    assert (L : last_char (s ++ String c "") = Some c) by (clear H; induction s as [|a s IH]; [reflexivity|]; cbn [append last_char]; destruct (s ++ String c "") eqn:E; [destruct s; discriminate|exact IH]).
    rewrite <- H in L. vm_compute in L. injection L as <-. cbn. intuition discriminate.
  - intros a b H. assert (L : split_on tilde (a ++ String "~" b) <> [a ++ String "~" b]).
    { clear H. induction a as [|x a IH]; cbn [append split_on].
      - change (Ascii.eqb "~" tilde) with true. cbv iota. intros E. apply (f_equal (@List.length _)) in E. cbn [List.length] in E. destruct (split_on tilde b) eqn:Eb; [now apply split_on_nonempty in Eb|discriminate].
      - destruct (Ascii.eqb x tilde); [intros E; apply (f_equal (@List.length _)) in E; cbn [List.length] in E; destruct (split_on tilde (a ++ String "~" b)) eqn:Eb; [now apply split_on_nonempty in Eb|discriminate]|].
        destruct (split_on tilde (a ++ String "~" b)) as [|y l] eqn:Eb; [now apply split_on_nonempty in Eb|]. intros E. injection E as -> ->. now apply IH. }
    apply L. rewrite <- H. vm_compute. reflexivity.
Qed.
Print Assumptions C310_jwt_json.
