From Coq Require Import ZifyN ZifyNat.
From Verif Require Import GoBase StatusModel JwtModel PexSpec PexModel StrLemmas PexMerge VcModel VcParse VpModel MtModel MtSpec.

(** ** Path texts *)
Definition clear_of (p : ascii -> bool) (s : string) : Prop := match s with String c _ => p c = false | EmptyString => True end.
Lemma span_app p a b : all_chars p a = true -> clear_of p b -> span p (a ++ b) = (a, b).
Proof.
  induction a as [|c a IH]; intros Ha Hb; cbn [append].
  - destruct b as [|c b]; cbn; [reflexivity|]. cbn in Hb. now rewrite Hb.
  - cbn in Ha. apply andb_true_iff in Ha as [H1 H2]. cbn [span]. rewrite H1, (IH H2 Hb). reflexivity.
Qed.
Lemma digits_all s : forall a z, digits_val a s = Some z -> all_chars digit s = true.
Proof.
  induction s as [|c s IH]; intros a z H; [reflexivity|]. cbn in H |- *. destruct (digit_val c) as [v|] eqn:E; [|discriminate]. rewrite (IH _ _ H), andb_true_r.
  unfold digit_val in E. unfold digit. destruct ((48 <=? Z.of_N (N_of_ascii c)) && (Z.of_N (N_of_ascii c) <=? 57))%bool eqn:X; [|discriminate].
  apply andb_true_iff in X as [X1 X2]. apply andb_true_iff. split; [apply N.leb_le|apply N.leb_le]; lia.
Qed.
Lemma itoa_digits i : all_chars digit (itoa i) = true.
Proof. exact (digits_all _ _ _ (itoa_val i)). Qed.
Lemma numeral_itoa i : Z.of_nat i < 2 ^ 63 -> numeral (itoa i) = Some i.
Proof. intros H. unfold numeral. rewrite atoi_itoa, Nat2Z.id, String.eqb_refl by assumption. reflexivity. Qed.
Lemma tail_clear l : clear_of (fun c => letter c || digit c)%bool (path_tail l).
Proof. destruct l as [|[n|i] l]; cbn; reflexivity. Qed.
Lemma steps_ok l : Forall good_step l -> forall fuel, (String.length (path_tail l) < fuel)%nat -> steps_of fuel (path_tail l) = Some l.
Proof.
  induction 1 as [|st l Hst _ IH]; intros [|f] Hf; try lia; [reflexivity|]. destruct st as [n|i]; cbn [path_tail step_text append] in *.
  - destruct Hst as [Hs Ha]. cbn [steps_of]. rewrite Ascii.eqb_refl, (span_app _ _ _ Ha (tail_clear l)). cbn [fst snd]. rewrite Hs.
    cbn [String.length] in Hf. rewrite append_length in Hf. rewrite IH by lia. reflexivity.
  - cbn [good_step] in Hst. cbn [steps_of]. change (Ascii.eqb "[" ".") with false. cbv iota. rewrite Ascii.eqb_refl.
    rewrite append_assoc_s. cbn [append]. rewrite (span_app _ _ _ (itoa_digits i)) by reflexivity. cbn [fst snd]. rewrite (numeral_itoa i Hst), Ascii.eqb_refl.
    cbn [String.length] in Hf. rewrite !append_length in Hf. cbn [String.length] in Hf. rewrite IH by lia. reflexivity.
Qed.
Lemma plain_text l : Forall good_step l -> plain_path (path_text l) = Some l.
Proof. intros H. unfold path_text, plain_path. cbn [append]. rewrite Ascii.eqb_refl. apply steps_ok; [assumption|lia]. Qed.
(** adjusting: "$.x" becomes "$.vp.x", other plain paths stay *)
Lemma substr_all s : forall n, (String.length s <= n)%nat -> substring 0 n s = s.
Proof. induction s as [|c s IH]; intros [|n] H; cbn in *; try lia; [reflexivity|reflexivity|]. now rewrite IH by lia. Qed.
Lemma adjust_name n l : replace_first "$." "$.vp." (path_text (Name n :: l)) = path_text (Name "vp" :: Name n :: l).
Proof.
  unfold path_text. cbn [path_tail step_text append]. cbn [replace_first has_prefix]. rewrite !Ascii.eqb_refl. cbn [andb append String.length substring].
  rewrite substr_all by lia. reflexivity.
Qed.
Lemma replace_clear c r new s : free_of c s -> replace_first (String c r) new s = s.
Proof.
  induction s as [|d s IH]; intros H; [reflexivity|]. apply free_of_cons in H as [H1 H2]. cbn [replace_first has_prefix].
  destruct (Ascii.eqb_spec c d); [congruence|]. cbn [andb]. now rewrite IH.
Qed.
Lemma free_app c a b : free_of c a -> free_of c b -> free_of c (a ++ b).
Proof. induction a as [|d a IH]; intros Ha Hb; [exact Hb|]. apply free_of_cons in Ha as [H1 H2]. cbn. apply free_of_cons. auto. Qed.
Lemma chars_free p c s : all_chars p s = true -> p c = false -> free_of c s.
Proof.
  induction s as [|d s IH]; intros H Hc; [intros []|]. cbn in H. apply andb_true_iff in H as [H1 H2]. apply free_of_cons. split; [congruence|auto].
Qed.
Lemma tail_free l : Forall good_step l -> free_of "$" (path_tail l).
Proof.
  induction 1 as [|st l Hst _ IH]; [intros []|]. cbn [path_tail]. apply free_app; [|assumption]. destruct st as [n|i]; cbn [step_text].
  - destruct Hst as [_ Ha]. cbn [append]. apply free_of_cons. split; [discriminate|]. eapply chars_free; [exact Ha|reflexivity].
  - cbn [append]. apply free_of_cons. split; [discriminate|]. apply free_app; [apply itoa_free; reflexivity|]. apply free_of_cons. split; [discriminate|intros []].
Qed.
Lemma adjust_index i l : Forall good_step (Index i :: l) -> replace_first "$." "$.vp." (path_text (Index i :: l)) = path_text (Index i :: l).
Proof.
  intros H. apply tail_free in H. unfold path_text. change ("$" ++ path_tail (Index i :: l)) with (String "$" (path_tail (Index i :: l))).
  assert (C : exists r, path_tail (Index i :: l) = String "[" r) by (eexists; reflexivity). destruct C as [r C]. rewrite C in *. clear C.
  pose proof (replace_clear "$" "." "$.vp." _ H) as R. cbn [replace_first has_prefix] in R |- *. rewrite Ascii.eqb_refl. change (Ascii.eqb "." "[") with false. cbn [andb].
  now rewrite R.
Qed.
Lemma adjust_nil : replace_first "$." "$.vp." (path_text []) = path_text [].
Proof. reflexivity. Qed.

(** ** Walking *)
Section Walk.
  Variable other : string -> json -> res json.
  Variable ft : nat -> string.
  Lemma walk_ok l : forall j v, walk ft l j = Ok v <-> reaches ft j l v.
  Proof.
    induction l as [|st l IH]; intros j v; cbn [walk].
    - split; [intros [= ->]; constructor|]. intros H. now inversion H.
    - split.
      + destruct st as [n|i], j as [| | | |a|m]; cbn [walk1]; try discriminate.
        * destruct (mget m n) as [x|] eqn:E; [|discriminate]. cbn. intros H. apply IH in H. now apply re_name with x.
        * destruct (nth_error a i) as [x|] eqn:E; [|discriminate]. cbn. intros H. apply IH in H. now apply re_item with x.
        * destruct (mget m (ft i)) as [x|] eqn:E; [|discriminate]. cbn. intros H. apply IH in H. now apply re_key with x.
      + intros H. inversion H as [|? ? x ? ? E R|? ? x ? ? E R|? ? x ? ? E R]; subst; cbn [walk1]; rewrite E; cbn; now apply IH.
  Qed.
  Lemma walk_np l : forall j, walk ft l j <> Panic.
  Proof.
    induction l as [|st l IH]; intros j; cbn [walk]; [discriminate|].
    destruct st as [n|i], j as [| | | |a|m]; cbn [walk1]; try discriminate.
    - destruct (mget m n); [apply IH|discriminate].
    - destruct (nth_error a i); [apply IH|discriminate].
    - destruct (mget m (ft i)); [apply IH|discriminate].
  Qed.
  Lemma select_step_ok l j v : Forall good_step l -> select_step other ft (path_text l) j = Ok v <-> leads ft l j v.
  Proof.
    intros G. unfold select_step, eval_path at 1. rewrite (plain_text l G). destruct (walk ft l j) as [w|e|] eqn:W.
    - split.
      + intros [= ->]. apply le_direct. now apply walk_ok.
      + intros H. inversion H as [l' j' v' R|n l' j' v' N R]; subst.
        * apply walk_ok in R. congruence.
        * apply walk_ok in W. exfalso. exact (N _ W).
    - assert (X : forall w, ~ reaches ft j l w) by (intros w R; apply walk_ok in R; congruence).
      destruct l as [|[n|i] l].
      + rewrite adjust_nil. unfold eval_path. rewrite (plain_text [] G), W. split; [discriminate|]. intros H. inversion H as [l' j' v' R|]; subst. exfalso. exact (X _ R).
      + rewrite adjust_name. unfold eval_path. rewrite plain_text by (constructor; [split; reflexivity|assumption]). rewrite walk_ok. split.
        * intros R. now apply le_vp.
        * intros H. inversion H as [l' j' v' R|n' l' j' v' N R]; subst; [exfalso; exact (X _ R)|assumption].
      + rewrite (adjust_index i l G). unfold eval_path. rewrite (plain_text _ G), W. split; [discriminate|]. intros H. inversion H as [l' j' v' R|]; subst. exfalso. exact (X _ R).
    - exfalso. exact (walk_np _ _ W).
  Qed.
  Lemma select_step_np l j : Forall good_step l -> select_step other ft (path_text l) j <> Panic.
  Proof.
    intros G. unfold select_step, eval_path at 1. rewrite (plain_text l G). destruct (walk ft l j) as [w|e|] eqn:W; [discriminate| |exfalso; exact (walk_np _ _ W)].
    destruct l as [|[n|i] l].
    - rewrite adjust_nil. unfold eval_path. rewrite (plain_text [] G). apply walk_np.
    - rewrite adjust_name. unfold eval_path. rewrite plain_text by (constructor; [split; reflexivity|assumption]). apply walk_np.
    - rewrite (adjust_index i l G). unfold eval_path. rewrite (plain_text _ G). apply walk_np.
  Qed.
  Lemma path_text_inj l l' : Forall good_step l -> Forall good_step l' -> path_text l = path_text l' -> l = l'.
  Proof. intros H H' E. pose proof (plain_text l H) as P. rewrite E, (plain_text l' H') in P. congruence. Qed.
  Fixpoint select_value_ok (m : mapping) : plain_mapping m -> forall j w, select_value other ft m j = Ok w <-> follows ft m j w.
  Proof.
    intros P j w. destruct m as [id fmt p nested]. assert (X : exists l, p = path_text l /\ Forall good_step l /\ forall n, nested = Some n -> plain_mapping n).
    { inversion P; subst. eauto. }
    destruct X as (l & -> & G & N). cbn [select_value]. destruct nested as [n|].
    - specialize (select_value_ok n (N n eq_refl)). split.
      + intros H. apply bind_ok in H as (v & H1 & H2). apply select_step_ok in H1; [|assumption]. apply select_value_ok in H2. now apply fo_nested with v.
      + intros H. remember (Mapping id fmt (path_text l) (Some n)) as m eqn:Em. destruct H as [? ? ? ? ? ? ?|id' fmt' l' n' j v w G' L F]; [discriminate|].
        injection Em as -> -> E1 ->. assert (E2 : path_text l' = path_text l) by (unfold path_text; now rewrite E1). apply path_text_inj in E2; auto. subst l'.
        apply select_step_ok in L; [|assumption]. rewrite L. cbn. now apply select_value_ok.
    - split.
      + intros H. apply bind_ok in H as (v & H1 & [= ->]). apply select_step_ok in H1; [|assumption]. now apply fo_last.
      + intros H. remember (Mapping id fmt (path_text l) None) as m eqn:Em. destruct H as [id' fmt' l' j v G' L|]; [|discriminate].
        injection Em as -> -> E1. assert (E2 : path_text l' = path_text l) by (unfold path_text; now rewrite E1). apply path_text_inj in E2; auto. subst l'.
        apply select_step_ok in L; [|assumption]. rewrite L. reflexivity.
  Qed.
  Fixpoint select_value_np (m : mapping) : plain_mapping m -> forall j, select_value other ft m j <> Panic.
  Proof.
    intros P j. destruct m as [id fmt p nested]. assert (X : exists l, p = path_text l /\ Forall good_step l /\ forall n, nested = Some n -> plain_mapping n).
    { inversion P; subst. eauto. }
    destruct X as (l & -> & G & N). cbn [select_value]. pose proof (select_step_np l j G). destruct (select_step other ft (path_text l) j) as [v|e|]; cbn [bind]; [|discriminate|congruence].
    destruct nested as [n|]; [|discriminate]. exact (select_value_np n (N n eq_refl) v).
  Qed.
End Walk.

(** ** Descriptor maps *)
Fixpoint mapping_round (m : mapping) : decode_mapping (mapping_json m) None = Ok (Some m).
Proof.
  destruct m as [id fmt path nested]. cbn [mapping_json].
  destruct nested as [n|]; [specialize (mapping_round n); set (jn := mapping_json n) in *; clearbody jn|clear mapping_round];
  destruct (String.eqb_spec id "") as [->|Hi], (String.eqb_spec fmt "") as [->|Hf], (String.eqb_spec path "") as [->|Hp]; cbn [app decode_mapping map fst snd];
    unfold sort_members, members_into; cbn [fold_right insert_member fst snd fold_left rmap bind];
    repeat match goal with |- context [String.leb ?a ?b] => let x := eval vm_compute in (String.leb a b) in change (String.leb a b) with x; cbv iota; cbn [insert_member fst snd] end;
    cbn [fold_left fst snd bind]; unfold member_into, empty_mapping;
    repeat match goal with |- context [equal_fold ?a ?b] => let x := eval vm_compute in (equal_fold a b) in change (equal_fold a b) with x; cbv iota end;
    cbn [text_into rmap bind]; rewrite ?mapping_round; reflexivity.
Qed.
Lemma mappings_round l : map_res (fun j => decode_mapping j None) (map mapping_json l) = Ok (map Some l).
Proof. induction l as [|m l IH]; cbn [map map_res]; [reflexivity|]. rewrite mapping_round. cbn [bind]. now rewrite IH. Qed.
Lemma submission_round id def l m : submission_json id def l = JObj m -> descriptor_mapping m = Ok (map Some l).
Proof.
  intros [= <-]. unfold descriptor_mapping.
  assert (E : mget ((if String.eqb id "" then [] else [("id", JStr id)]) ++ (if String.eqb def "" then [] else [("definition_id", JStr def)]) ++ [("descriptor_map", JArr (map mapping_json l))])%list "descriptor_map"
    = Some (JArr (map mapping_json l))) by (destruct (String.eqb id ""), (String.eqb def ""); reflexivity).
  rewrite E. apply mappings_round.
Qed.
