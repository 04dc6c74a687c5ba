(** Proofs about the data integrity model. *)
From Verif Require Import GoBase StrLemmas JwtSpec JwtProofs DiSpec DiModel.

Lemma sbind_ok {A B} (m : st A) (f : A -> st B) o o' b :
  sbind m f o = (o', Ok b) -> exists a o1, m o = (o1, Ok a) /\ f a o1 = (o', Ok b).
Proof. unfold sbind. destruct (m o) as [o1 [a|e|]]; intros H; try discriminate. eauto. Qed.
Lemma sret_ok {A} (r : res A) o o' a : sret r o = (o', Ok a) -> r = Ok a /\ o' = o.
Proof. unfold sret. intros [= -> ->]. auto. Qed.
Lemma sguard_ok b e o o' a : sguard b e o = (o', Ok a) -> b = true /\ o' = o.
Proof. unfold sguard, sret, guard. destruct b; intros [=]; auto. Qed.
Lemma sget_ok o o' a : sget o = (o', Ok a) -> a = o /\ o' = o.
Proof. unfold sget. intros [=]; subst; auto. Qed.
Lemma sput_ok f o o' a : sput f o = (o', Ok a) -> o' = f o.
Proof. unfold sput. intros [=]; subst; auto. Qed.
Ltac sinv :=
  repeat match goal with
  | H : sbind _ _ _ = (_, Ok _) |- _ => apply sbind_ok in H; destruct H as (? & ? & ? & H)
  | H : sret _ _ = (_, Ok _) |- _ => apply sret_ok in H; destruct H as [H ?]; subst
  | H : sguard _ _ _ = (_, Ok _) |- _ => apply sguard_ok in H; destruct H as [H ?]; subst
  | H : sget _ = (_, Ok _) |- _ => apply sget_ok in H; destruct H as [? ?]; subst
  | H : sput _ _ = (_, Ok _) |- _ => apply sput_ok in H; subst
  end.

(** *** Verification methods *)
Lemma split_on_cons_inv sep s x l : split_on sep s = x :: l ->
  (l = [] -> s = x /\ free_of sep s) /\
  (l <> [] -> exists r, s = x ++ String sep r /\ split_on sep r = l /\ free_of sep x).
Proof.
  intros H. pose proof (concat_split_on sep s) as Hc. pose proof (split_on_parts sep s) as Hp.
  rewrite H in Hc, Hp. inversion Hp as [|? ? Hx Hl]; subst. split.
  - intros ->. simpl in *. split; auto.
  - intros Hne. destruct l as [|y l]; [contradiction|].
    exists (String.concat (String sep "") (y :: l)). split.
    + rewrite concat_cons. reflexivity.
    + split; [apply split_on_concat; [discriminate|auto]|auto].
Qed.
Lemma free_of_not_in sep s : free_of sep s <-> ~ char_in sep s.
Proof. unfold free_of. tauto. Qed.

Lemma vm_fragment_spec s : fragment_of s (vm_fragment s).
Proof.
  unfold vm_fragment. destruct (split_on hash_char s) as [|x l] eqn:E.
  - exfalso; eapply split_on_nonempty; eauto.
  - apply split_on_cons_inv in E as [E1 E2]. destruct l as [|y l].
    + destruct E1 as [-> Hf]; auto. apply fo_none. apply free_of_not_in; auto.
    + destruct E2 as (r & -> & Hr & Hf); [discriminate|].
      apply split_on_cons_inv in Hr as [R1 R2]. destruct l as [|z l].
      * destruct R1 as [-> Hf2]; auto. apply fo_one; apply free_of_not_in; auto.
      * destruct R2 as (r2 & -> & Hr2 & Hf2); [discriminate|]. apply fo_more; apply free_of_not_in; auto.
Qed.
Lemma did_of_vm_spec s d : did_of_vm s = Ok d -> did_url s d (vm_fragment s).
Proof.
  unfold did_of_vm, vm_fragment. destruct (split_on hash_char s) as [|x [|y [|z l]]] eqn:E; try discriminate.
  intros [= ->]. apply split_on_cons_inv in E as [_ E]. destruct E as (r & -> & Hr & Hf); [discriminate|].
  apply split_on_cons_inv in Hr as [R _]. destruct R as [-> Hf2]; auto.
  split; [reflexivity|]. split; apply free_of_not_in; auto.
Qed.
Lemma get_vm_spec f vms v : get_vm f vms = Some v -> In v vms /\ f = vm_fragment (dm_id v).
Proof.
  induction vms as [|x xs IH]; simpl; [discriminate|].
  destruct (String.eqb_spec f (vm_fragment (dm_id x))) as [->|]; [intros [= ->]; auto|].
  intros H; destruct (IH H); auto.
Qed.
Lemma get_vm_none f vms : get_vm f vms = None -> forall v, In v vms -> vm_fragment (dm_id v) <> f.
Proof.
  induction vms as [|x xs IH]; simpl; [tauto|].
  destruct (String.eqb_spec f (vm_fragment (dm_id x))); [discriminate|].
  intros H v [->|Hv]; [auto|apply IH; auto].
Qed.
Lemma methods_In d s v : In v (methods d s) <-> In (s, v) d.
Proof.
  unfold methods. rewrite in_map_iff. split.
  - intros ([s' v'] & <- & H). apply filter_In in H as [H H']. simpl in *.
    destruct s', s; try discriminate H'; auto.
  - intros H. exists (s, v). split; [reflexivity|]. apply filter_In. split; [auto|]. destruct s; reflexivity.
Qed.
Lemma get_vm_by_purpose_spec p id d v : get_vm_by_purpose p id d = Ok v ->
  exists sec, In (sec, v) d /\ authorised p sec /\ vm_fragment id = vm_fragment (dm_id v).
Proof.
  unfold get_vm_by_purpose.
  destruct (String.eqb_spec p "assertionMethod") as [->|]; [|
  destruct (String.eqb_spec p "authentication") as [->|]; [|
  destruct (String.eqb_spec p "capabilityDelegation") as [->|]; [|
  destruct (String.eqb_spec p "capabilityInvocation") as [->|]]]]; cbn [bind]; try discriminate.
  - destruct (get_vm (vm_fragment id) (methods d SecAssertion)) eqn:E1.
    + intros [= ->]. apply get_vm_spec in E1 as [Hi Hf]. exists SecAssertion.
      rewrite methods_In in Hi. split; [auto|split; [constructor|auto]].
    + destruct (get_vm (vm_fragment id) (methods d SecGeneral)) eqn:E2; [|discriminate].
      intros [= ->]. apply get_vm_spec in E2 as [Hi Hf]. exists SecGeneral.
      rewrite methods_In in Hi. split; [auto|split; [constructor|auto]].
  - destruct (get_vm _ _) eqn:E1; [|discriminate]. intros [= ->]. apply get_vm_spec in E1 as [Hi Hf].
    rewrite methods_In in Hi. eexists; split; [eauto|split; [constructor|auto]].
  - destruct (get_vm _ _) eqn:E1; [|discriminate]. intros [= ->]. apply get_vm_spec in E1 as [Hi Hf].
    rewrite methods_In in Hi. eexists; split; [eauto|split; [constructor|auto]].
  - destruct (get_vm _ _) eqn:E1; [|discriminate]. intros [= ->]. apply get_vm_spec in E1 as [Hi Hf].
    rewrite methods_In in Hi. eexists; split; [eauto|split; [constructor|auto]].
Qed.
(** completeness: an authorised method with the fragment makes the look-up succeed *)
Lemma get_vm_by_purpose_complete p id d v sec : In (sec, v) d -> authorised p sec ->
  vm_fragment id = vm_fragment (dm_id v) -> exists v', get_vm_by_purpose p id d = Ok v'.
Proof.
  intros Hi Ha Hf. apply methods_In in Hi.
  assert (Hsome : get_vm (vm_fragment id) (methods d sec) <> None).
  { intros Hn. eapply get_vm_none in Hn; eauto. }
  unfold get_vm_by_purpose. revert Hsome. generalize (vm_fragment id). intros fr Hsome.
  inversion Ha; subst; cbn -[get_vm methods].
  - destruct (get_vm fr (methods d SecAssertion)); [eauto|congruence].
  - destruct (get_vm fr (methods d SecAssertion)); [eauto|].
    destruct (get_vm fr (methods d SecGeneral)); [eauto|congruence].
  - destruct (get_vm fr (methods d SecAuthentication)); [eauto|congruence].
  - destruct (get_vm fr (methods d SecDelegation)); [eauto|congruence].
  - destruct (get_vm fr (methods d SecInvocation)); [eauto|congruence].
Qed.

Definition vm_resolved (rs : option (string -> res ddoc)) (purpose id : string) (vm : dmethod) : Prop :=
  exists r doc, rs = Some r /\ did_doc_of_vm r id = Ok doc /\ get_vm_by_purpose purpose id doc = Ok vm.
Lemma vm_resolved_names rs p id vm : vm_resolved rs p id vm -> exists r, rs = Some r /\ names r p id vm.
Proof.
  intros (r & doc & -> & Hd & Hv). exists r. split; [auto|].
  unfold did_doc_of_vm in Hd. apply bind_ok in Hd as (did & Hdid & Hr).
  apply did_of_vm_spec in Hdid. apply get_vm_by_purpose_spec in Hv as (sec & Hi & Ha & Hf).
  exists did, (vm_fragment id), doc, sec. repeat (split; [auto|]). rewrite Hf. apply vm_fragment_spec.
Qed.

Lemma resolve_vm_ok rs id o o' a : resolve_vm rs id o = (o', Ok a) ->
  (exists v, o_vm o = Some v /\ o' = o) \/
  (o_vm o = None /\ exists vm, let o1 := if String.eqb (o_vmid o) "" then set_vmid o id else o in
     vm_resolved rs (o_purpose o) (o_vmid o1) vm /\ o' = set_vm o1 vm).
Proof.
  unfold resolve_vm. intros H. sinv.
  destruct (o_vm o) as [v|] eqn:Ev; sinv; [left; eauto|]. right. split; [auto|].
  destruct rs as [r|]; sinv; [|discriminate].
  match goal with H : did_doc_of_vm _ _ = Ok ?d |- _ => rename H into Hd; rename d into doc end.
  match goal with H : get_vm_by_purpose _ _ _ = Ok ?d |- _ => rename H into Hv; rename d into vm end.
  exists vm. cbv zeta. split; [|reflexivity]. exists r, doc. split; [auto|]. split; [exact Hd|].
  destruct (String.eqb (o_vmid o) ""); exact Hv.
Qed.

(** *** One proof *)
Definition keeps (o o' : popts) : Prop :=
  o_purpose o' = o_purpose o /\ o_domain o' = o_domain o /\ o_challenge o' = o_challenge o /\ o_ptype o' = o_ptype o.
(** the options handed to the suite, as a function of the options before and the proof *)
Definition seen (E : dienv) (rs : option (string -> res ddoc)) (p : dproof) (o o1 : popts) : Prop :=
  keeps o o1
  /\ o_suite o1 = (if String.eqb (o_suite o) "" then p_suite p else o_suite o)
  /\ (if is_zero (o_created o) && negb (String.eqb (p_created p) "")
      then d_parse E (p_created p) = Some (o_created o1) else o_created o1 = o_created o)
  /\ (if negb (String.eqb (p_expires p) "") then d_parse E (p_expires p) = Some (o_expires o1)
      else o_expires o1 = o_expires o)
  /\ ((exists v, o_vm o = Some v /\ o_vm o1 = Some v /\ o_vmid o1 = o_vmid o)
      \/ (o_vm o = None /\ o_vmid o1 = (if String.eqb (o_vmid o) "" then p_vm p else o_vmid o) /\
          exists vm, o_vm o1 = Some vm /\ vm_resolved rs (o_purpose o) (o_vmid o1) vm)).

Lemma parse_time_ok E s t : parse_time E s = Ok t -> d_parse E s = Some t.
Proof. unfold parse_time. destruct (d_parse E s); intros [=]; congruence. Qed.

Lemma verify_one_ok E V now doc pj o o' : verify_one E V now doc pj o = (o', Ok tt) ->
  exists p s o1, unmarshal_proof pj = Ok p
    /\ p_type p = "DataIntegrityProof" /\ p_vm p <> "" /\ p_purpose p <> "" /\ p_purpose p = o_purpose o
    /\ mget (dv_suites V) (p_suite p) = Some s
    /\ (vs_req s = true -> p_created p <> "")
    /\ (p_expires p <> "" -> exists t, d_parse E (p_expires p) = Some t /\ gt_ns now <= gt_ns t)
    /\ seen E (dv_resolver V) p o o1
    /\ vs_verify s doc p o1 = (o', Ok tt)
    /\ (o_domain o' <> "" -> o_domain o' = p_domain p)
    /\ (o_challenge o' <> "" -> o_challenge o' = p_challenge p).
Proof.
  unfold verify_one. intros H. sinv.
  match goal with H : unmarshal_proof pj = Ok ?q |- _ => rename H into Hp; rename q into p end.
  match goal with H : match mget _ _ with _ => _ end = Ok ?q |- _ => rename H into Hs; rename q into s end.
  destruct (mget (dv_suites V) (p_suite p)) as [s'|] eqn:Es; [|discriminate]. injection Hs as ->.
  repeat match goal with H : negb _ = true |- _ => apply negb_true_iff in H end.
  repeat match goal with H : (_ || _)%bool = false |- _ => apply orb_false_iff in H; destruct H end.
  repeat match goal with H : String.eqb _ _ = false |- _ => apply String.eqb_neq in H end.
  repeat match goal with H : String.eqb _ _ = true |- _ => apply String.eqb_eq in H end.
  match goal with H : resolve_vm _ _ _ = _ |- _ => rename H into Hvm end.
  destruct (vs_verify s doc p _) as [o2 r] eqn:Ev in H. sinv. subst.
  match type of Hvm with resolve_vm _ _ ?zz = (?yy, _) => rename zz into oa; rename yy into o1 end.
  set (osu := if String.eqb (o_suite o) "" then set_suite o (p_suite p) else o) in *.
  (* created *)
  match goal with H : (if is_zero _ && _ then _ else _) _ = (?zz, Ok _) |- _ => rename H into Hcr; rename zz into oc end.
  assert (C : keeps osu oc /\ o_suite oc = o_suite osu /\ o_vm oc = o_vm osu /\ o_vmid oc = o_vmid osu
     /\ o_expires oc = o_expires osu /\
     (if is_zero (o_created osu) && negb (String.eqb (p_created p) "")
      then d_parse E (p_created p) = Some (o_created oc) else o_created oc = o_created osu)).
  { destruct (is_zero (o_created osu) && negb (String.eqb (p_created p) "")) eqn:Ec; sinv.
    - match goal with H : parse_time _ _ = Ok _ |- _ => apply parse_time_ok in H end.
      unfold keeps; cbn. repeat split; auto.
    - unfold keeps; repeat split; auto. }
  clear Hcr.
  match goal with H : (if negb (String.eqb (p_expires p) "") then _ else _) oc = (oa, Ok _) |- _ => rename H into Hex end.
  assert (X : keeps oc oa /\ o_suite oa = o_suite oc /\ o_vm oa = o_vm oc /\ o_vmid oa = o_vmid oc
     /\ o_created oa = o_created oc /\
     (if negb (String.eqb (p_expires p) "") then d_parse E (p_expires p) = Some (o_expires oa)
      else o_expires oa = o_expires oc) /\
     (p_expires p <> "" -> exists t, d_parse E (p_expires p) = Some t /\ gt_ns now <= gt_ns t)).
  { destruct (String.eqb_spec (p_expires p) "") as [Ee|Ee]; cbn [negb] in *; sinv.
    - unfold keeps; repeat split; auto. intros; contradiction.
    - match goal with H : parse_time _ _ = Ok _ |- _ => apply parse_time_ok in H end.
      unfold keeps; cbn. repeat split; auto. intros _. eexists; split; [eassumption|].
      apply Z.leb_le; assumption. }
  clear Hex.
  assert (U : keeps o osu /\ o_suite osu = (if String.eqb (o_suite o) "" then p_suite p else o_suite o)
     /\ o_vm osu = o_vm o /\ o_vmid osu = o_vmid o /\ o_created osu = o_created o /\ o_expires osu = o_expires o).
  { subst osu. destruct (String.eqb (o_suite o) ""); unfold keeps; cbn; repeat split; auto. }
  clearbody osu.
  destruct U as (U0 & U1 & U2 & U3 & U4 & U5), C as (C0 & C1 & C2 & C3 & C4 & C5),
    X as (X0 & X1 & X2 & X3 & X4 & X5 & X6).
  exists p, s, o1. do 4 (split; [auto|]).
  assert (K : keeps o oa). { unfold keeps in *. intuition congruence. }
  split. { destruct U0 as (E1 & _), C0 as (E2 & _). congruence. }
  split; [auto|].
  split. { intros Hr. match goal with H : (_ && _)%bool = false |- _ => rewrite Hr in H; cbn in H;
    apply String.eqb_neq in H; auto end. }
  split; [exact X6|].
  split.
  { apply resolve_vm_ok in Hvm. cbv zeta in Hvm.
    assert (G : keeps oa o1 /\ o_suite o1 = o_suite oa /\ o_created o1 = o_created oa /\ o_expires o1 = o_expires oa).
    { destruct Hvm as [(v & _ & ->)|(_ & vm & _ & ->)]; [unfold keeps; auto 10|].
      destruct (String.eqb (o_vmid oa) ""); unfold keeps; cbn; auto 10. }
    destruct G as (G0 & G1 & G2 & G3).
    split; [unfold keeps in *; intuition congruence|].
    split; [congruence|].
    rewrite U4 in C5. split.
    { destruct (is_zero (o_created o) && negb (String.eqb (p_created p) ""))%bool; congruence. }
    split. { destruct (negb (String.eqb (p_expires p) "")); congruence. }
    destruct Hvm as [(v & Hv & ->)|(Hn & vm & Hr & ->)].
    - left. exists v. repeat split; congruence.
    - right. split; [congruence|]. assert (Hi : o_vmid oa = o_vmid o) by congruence.
      assert (Hpu : o_purpose oa = o_purpose o) by (destruct K; congruence).
      rewrite Hpu in Hr. rewrite <- Hi. destruct (String.eqb (o_vmid oa) "") eqn:Ei; cbn in *.
      + split; [reflexivity|]. exists vm; auto.
      + split; [auto|]. exists vm; split; auto. }
  match goal with H : Ok tt = Ok tt |- _ => clear H | _ => idtac end.
  split; [exact Ev|].
  split; intros Hne.
  - match goal with H : (String.eqb (o_domain _) "" || _)%bool = true |- _ => apply orb_true_iff in H;
      destruct H as [H|H]; apply String.eqb_eq in H; auto; contradiction end.
  - match goal with H : (String.eqb (o_challenge _) "" || _)%bool = true |- _ => apply orb_true_iff in H;
      destruct H as [H|H]; apply String.eqb_eq in H; auto; contradiction end.
Qed.

(** *** The two suites *)
Definition opt_time (E : dienv) (t : gtime) : option string := if is_zero t then None else Some (d_fmt E t).
Definition config_of (E : dienv) (m : gomap json) (o : popts) : gomap json :=
  config (context_of m) (o_suite o) (o_vmid o) (o_purpose o) (opt_time E (o_created o)) (opt_time E (o_expires o))
    (o_challenge o) (o_domain o).
Lemma proof_config_eq E ctx s o : proof_config E ctx s o =
  config ctx s (o_vmid o) (o_purpose o) (opt_time E (o_created o)) (opt_time E (o_expires o)) (o_challenge o) (o_domain o).
Proof.
  unfold proof_config, config, opt_time, opt_text, opt_field.
  destruct (is_zero (o_created o)), (is_zero (o_expires o)), (String.eqb (o_challenge o) ""),
    (String.eqb (o_domain o) ""); reflexivity.
Qed.

Lemma str2 s : (2 < String.length s)%nat -> exists a b r, s = String a (String b r) /\ r <> ""
  /\ substring 0 2 s = String a (String b "") /\ substring 2 (String.length s - 2) s = r.
Proof.
  destruct s as [|a [|b [|c r]]]; cbn [String.length]; try lia. intros _.
  exists a, b, (String c r). split; [reflexivity|]. split; [discriminate|]. split; [reflexivity|].
  assert (forall s, substring 0 (String.length s) s = s) as Hs.
  { induction s; simpl; [reflexivity|f_equal; auto]. }
  cbn [String.length Nat.sub]. rewrite ?Nat.sub_0_r. apply (Hs (String c r)).
Qed.
Lemma N_ascii a n : (n < 256)%N -> a = ascii_of_N n -> N_of_ascii a = n.
Proof. intros H ->. apply N_ascii_embedding; auto. Qed.
Lemma ascii2_eq a b x y : String.eqb (String a (String b "")) (ascii2 x y) = true ->
  a = ascii_of_N x /\ b = ascii_of_N y.
Proof. intros H. apply String.eqb_eq in H. unfold ascii2 in H. injection H as -> ->. auto. Qed.

Lemma ecdsa_key_ok E n vm a h k : n = "ecdsa-2019" \/ n = "ecdsa-rdfc-2019" ->
  ecdsa_key E vm = Ok (a, h, k) -> suite_key E n vm a h k.
Proof.
  intros Hn. unfold ecdsa_key. destruct (dm_jwk vm) as [j|] eqn:Ej.
  - destruct (String.eqb_spec (jk_crv j) "P-256"); [intros [= <- <- <-]; apply sk_p256; auto|].
    destruct (String.eqb_spec (jk_crv j) "P-384"); [intros [= <- <- <-]; apply sk_p384; auto|discriminate].
  - destruct (Nat.ltb_spec 2 (String.length (dm_value vm))) as [Hl|]; [|discriminate].
    destruct (str2 _ Hl) as (x & y & r & Ev & Hr & -> & ->).
    destruct (String.eqb _ (ascii2 128 36) || String.eqb _ (ascii2 18 0))%bool eqn:E1.
    + intros [= <- <- <-]. apply (sk_multi E n vm x y r AP256 SHA256); auto.
      apply orb_true_iff in E1 as [E1|E1]; apply ascii2_eq in E1 as [-> ->]; unfold multikey_alg; [left|right]; reflexivity.
    + destruct (String.eqb _ (ascii2 129 36) || String.eqb _ (ascii2 18 1))%bool eqn:E2; [|discriminate].
      intros [= <- <- <-]. apply (sk_multi E n vm x y r AP384 SHA384); auto.
      apply orb_true_iff in E2 as [E2|E2]; apply ascii2_eq in E2 as [-> ->]; unfold multikey_alg; [left|right]; reflexivity.
Qed.
Lemma eddsa_key_ok E n vm k : n = "eddsa-rdfc-2022" \/ n = "eddsa-2022" ->
  eddsa_key vm = Ok k -> suite_key E n vm AEd25519 SHA256 k.
Proof.
  intros Hn. unfold eddsa_key. destruct (dm_jwk vm) eqn:Ej; [intros [= <-]; apply sk_ed; auto|].
  destruct (Nat.ltb_spec 0 (String.length (dm_value vm))); [|discriminate].
  intros [= <-]. apply sk_edraw; auto. intros Hz; rewrite Hz in *; cbn in *; lia.
Qed.

Definition hash_of (a : dalg) : hashalg := match a with AP384 => SHA384 | _ => SHA256 end.

Lemma ecdsa_transform_ok E m o o' msg a k : o_suite o <> "" ->
  ecdsa_transform E (JObj m) o = (o', Ok (msg, a, k)) ->
  o' = o /\ o_ptype o = "DataIntegrityProof" /\ In (o_suite o) ecdsa_types /\
  exists vm h, o_vm o = Some vm /\ suite_key E (o_suite o) vm a h k /\ message E h m (config_of E m o) msg.
Proof.
  intros Hs H. unfold ecdsa_transform in H. apply sbind_ok in H as (u & o1 & Hp & H). apply sput_ok in Hp.
  destruct (String.eqb_spec (o_suite o) ""); [contradiction|]. subst o1.
  sinv. cbn [doc_map] in *.
  repeat match goal with H : Ok _ = Ok _ |- _ => injection H as; subst end.
  match goal with H : match o_vm ?oo with _ => _ end = _ |- _ => destruct (o_vm oo) as [vm|] eqn:Evm; [|discriminate];
    injection H as <- end.
  repeat match goal with H : (let '(_, _) := ?x in _) _ = _ |- _ => destruct x end. sinv.
  repeat match goal with H : Ok _ = Ok _ |- _ => injection H as; subst end.
  match goal with H : (_ && _)%bool = true |- _ => apply andb_true_iff in H as [G1 G2] end.
  apply String.eqb_eq in G1.
  assert (Hn : o_suite o = "ecdsa-2019" \/ o_suite o = "ecdsa-rdfc-2019").
  { apply orb_true_iff in G2 as [G|G]; apply String.eqb_eq in G; auto. }
  split; [auto|]. split; [auto|]. split; [unfold ecdsa_types; destruct Hn as [-> | ->]; simpl; auto|].
  match goal with H : ecdsa_key _ _ = Ok (?a0, ?h0, ?k0) |- _ => exists vm, h0; apply (ecdsa_key_ok E (o_suite o)) in H; auto end.
  split; [auto|]. split; [auto|].
  rewrite proof_config_eq in *. unfold message, hash_data. eauto.
Qed.
Lemma eddsa_transform_ok E m o o' msg a k :
  eddsa_transform E (JObj m) o = (o', Ok (msg, a, k)) ->
  o' = o /\ o_ptype o = "DataIntegrityProof" /\ In (o_suite o) eddsa_types /\
  exists vm h, o_vm o = Some vm /\ suite_key E (o_suite o) vm a h k /\ message E h m (config_of E m o) msg.
Proof.
  intros H. unfold eddsa_transform in H. sinv. cbn [doc_map] in *.
  repeat match goal with H : Ok _ = Ok _ |- _ => injection H as; subst end.
  match goal with H : match o_vm ?oo with _ => _ end = _ |- _ => destruct (o_vm oo) as [vm|] eqn:Evm; [|discriminate];
    injection H as <- end.
  match goal with H : (_ && _)%bool = true |- _ => apply andb_true_iff in H as [G1 G2] end.
  apply String.eqb_eq in G1.
  assert (Hn : o_suite o = "eddsa-rdfc-2022" \/ o_suite o = "eddsa-2022").
  { apply orb_true_iff in G2 as [G|G]; apply String.eqb_eq in G; auto. }
  split; [auto|]. split; [auto|]. split; [unfold eddsa_types; destruct Hn as [-> | ->]; simpl; auto|].
  exists vm, SHA256. split; [auto|]. split; [apply eddsa_key_ok; auto|].
  destruct (String.eqb_spec (o_suite o) "") as [E0|]; [destruct Hn; congruence|].
  rewrite proof_config_eq in *. unfold message, hash_data. eauto.
Qed.

Definition std_suites (E : dienv) (m : gomap vsuite) : Prop :=
  forall n s, mget m n = Some s -> (s = ecdsa_verifier E /\ In n ecdsa_types) \/ (s = eddsa_verifier E /\ In n eddsa_types).

Lemma std_verify_ok E suites n s m p o o' : std_suites E suites -> mget suites n = Some s -> o_suite o <> "" ->
  vs_verify s (JObj m) p o = (o', Ok tt) ->
  o' = o /\ o_ptype o = "DataIntegrityProof" /\
  exists vm, o_vm o = Some vm /\ signed_by E (o_suite o) vm m (config_of E m o) (p_value p).
Proof.
  intros Hstd Hs Hne H.
  destruct (Hstd _ _ Hs) as [[-> _]|[-> _]]; cbn [vs_verify ecdsa_verifier eddsa_verifier] in H; unfold suite_verify in H;
    apply sbind_ok in H as ([[msg a] k] & o1 & Ht & H).
  - apply ecdsa_transform_ok in Ht as (-> & Hp & _ & vm & h & Hvm & Hk & Hm); auto.
    sinv. destruct (d_mbdec E (p_value p)) as [sg|] eqn:Es; [|discriminate].
    split; [auto|]. split; [auto|]. exists vm. split; [auto|].
    exists a, h, k, sg, msg. repeat (split; [auto|]). congruence.
  - apply eddsa_transform_ok in Ht as (-> & Hp & _ & vm & h & Hvm & Hk & Hm); auto.
    sinv. destruct (d_mbdec E (p_value p)) as [sg|] eqn:Es; [|discriminate].
    split; [auto|]. split; [auto|]. exists vm. split; [auto|].
    exists a, h, k, sg, msg. repeat (split; [auto|]). congruence.
Qed.

(** *** Registries *)
Lemma mhas_false {V} (m : gomap V) k : mhas m k = false <-> mget m k = None.
Proof. unfold mhas. destruct (mget m k); split; congruence. Qed.
Lemma register_types_spec {S} types (init : res S) : forall m m', register_types types init m = Ok m' ->
  forall n, mget m' n = match mget m n with
                        | Some s => Some s
                        | None => if str_in n types then match init with Ok s => Some s | _ => None end else None
                        end.
Proof.
  induction types as [|t ts IH]; simpl; intros m m' H n.
  - injection H as ->. destruct (mget m' n); reflexivity.
  - destruct (mhas m t) eqn:Em.
    + rewrite (IH _ _ H n). destruct (mget m n) eqn:E; [reflexivity|].
      destruct (String.eqb_spec n t) as [->|]; simpl; [|reflexivity].
      unfold mhas in Em. rewrite E in Em. discriminate.
    + apply bind_ok in H as (s & Hs & H). rewrite (IH _ _ H n), mget_mset. rewrite Hs.
      destruct (String.eqb_spec n t) as [->|]; simpl.
      * apply mhas_false in Em. rewrite Em. reflexivity.
      * reflexivity.
Qed.
(** the first initializer that lists the name decides *)
Fixpoint first_init {S} (inits : list (list string * res S)) (n : string) : option S :=
  match inits with
  | [] => None
  | (types, init) :: rest =>
      if str_in n types then match init with Ok s => Some s | _ => None end else first_init rest n
  end.
Lemma register_types_err {S} types (init : res S) m m' n : register_types types init m = Ok m' ->
  In n types -> mget m n = None -> exists s, init = Ok s.
Proof.
  revert m. induction types as [|t ts IH]; simpl; intros m H Hi Hn; [contradiction|].
  destruct (mhas m t) eqn:Em.
  - destruct Hi as [->|Hi]; [unfold mhas in Em; rewrite Hn in Em; discriminate|eauto].
  - apply bind_ok in H as (s & Hs & H). eauto.
Qed.
Lemma register_spec {S} (inits : list (list string * res S)) : forall m m', register inits m = Ok m' ->
  forall n, mget m' n = match mget m n with Some s => Some s | None => first_init inits n end.
Proof.
  induction inits as [|[types init] rest IH]; simpl; intros m m' H n.
  - injection H as ->. destruct (mget m' n); reflexivity.
  - apply bind_ok in H as (m1 & H1 & H). rewrite (IH _ _ H n), (register_types_spec _ _ _ _ H1 n).
    destruct (mget m n) eqn:E; [reflexivity|]. destruct (str_in n types) eqn:Ei; [|reflexivity].
    apply str_in_In in Ei. destruct (register_types_err _ _ _ _ _ H1 Ei E) as (s & ->). reflexivity.
Qed.
Lemma new_registry_spec {S} (inits : list (list string * res S)) m : new_registry inits = Ok m ->
  forall n, mget m n = first_init inits n.
Proof. intros H n. rewrite (register_spec _ _ _ H n). reflexivity. Qed.

Definition std_inits (E : dienv) (inits : list (list string * res vsuite)) : Prop :=
  Forall (fun i => i = (ecdsa_types, Ok (ecdsa_verifier E)) \/ i = (eddsa_types, Ok (eddsa_verifier E))) inits.
Lemma std_inits_std E inits m : std_inits E inits -> new_registry inits = Ok m -> std_suites E m.
Proof.
  intros Hi Hm n s. rewrite (new_registry_spec _ _ Hm n). clear Hm m.
  induction Hi as [|i l [-> | ->] _ IH]; [discriminate| |]; cbn [first_init]; destruct (str_in n _) eqn:En; auto.
  - intros [= <-]. left. split; [auto|]. apply str_in_In; auto.
  - intros [= <-]. right. split; [auto|]. apply str_in_In; auto.
Qed.

(** *** Proof sets *)
Lemma keeps_refl o : keeps o o. Proof. unfold keeps; auto. Qed.
Lemma keeps_trans a b c : keeps a b -> keeps b c -> keeps a c.
Proof. unfold keeps; intuition congruence. Qed.

Lemma std_names E suites n s : std_suites E suites -> mget suites n = Some s -> n <> "".
Proof.
  intros H Hs. destruct (H _ _ Hs) as [[_ Hn]|[_ Hn]]; simpl in Hn;
    repeat (destruct Hn as [<-|Hn]; [discriminate|]); contradiction.
Qed.

Lemma verify_one_std E V now m pj o o' : std_suites E (dv_suites V) ->
  verify_one E V now (JObj m) pj o = (o', Ok tt) ->
  exists p s vm, unmarshal_proof pj = Ok p
    /\ p_type p = "DataIntegrityProof" /\ p_vm p <> "" /\ p_purpose p <> "" /\ p_purpose p = o_purpose o
    /\ mget (dv_suites V) (p_suite p) = Some s
    /\ (p_expires p <> "" -> exists t, d_parse E (p_expires p) = Some t /\ gt_ns now <= gt_ns t)
    /\ (o_domain o <> "" -> o_domain o = p_domain p)
    /\ (o_challenge o <> "" -> o_challenge o = p_challenge p)
    /\ seen E (dv_resolver V) p o o' /\ o_ptype o = "DataIntegrityProof"
    /\ o_vm o' = Some vm /\ signed_by E (o_suite o') vm m (config_of E m o') (p_value p).
Proof.
  intros Hstd H. apply verify_one_ok in H as (p & s & o1 & H1 & H2 & H3 & H4 & H5 & H6 & H7 & H8 & H9 & H10 & H11 & H12).
  assert (Hn : o_suite o1 <> "").
  { destruct H9 as (_ & -> & _). destruct (String.eqb_spec (o_suite o) ""); auto. eapply std_names; eauto. }
  destruct (std_verify_ok _ _ _ _ _ _ _ _ Hstd H6 Hn H10) as (-> & Hp & vm & Hvm & Hsig).
  pose proof H9 as (K & _). destruct K as (K1 & K2 & K3 & K4).
  exists p, s, vm. repeat (split; [solve [auto | congruence]|]).
  split; [intros; rewrite <- K2 in *; auto|]. split; [intros; rewrite <- K3 in *; auto|].
  split; [auto|]. split; [congruence|]. auto.
Qed.

Lemma verify_all_cons E V now doc pj ps o o' : verify_all E V now doc (pj :: ps) o = (o', Ok tt) ->
  exists o1, verify_one E V now doc pj o = (o1, Ok tt) /\ verify_all E V now doc ps o1 = (o', Ok tt).
Proof. cbn [verify_all]. intros H. apply sbind_ok in H as ([] & o1 & H1 & H2). eauto. Qed.

(** policy of every proof *)
Lemma verify_all_policy E V now m ps : std_suites E (dv_suites V) -> forall o o',
  verify_all E V now (JObj m) ps o = (o', Ok tt) ->
  keeps o o' /\
  forall pj, In pj ps -> exists p s, unmarshal_proof pj = Ok p
    /\ p_type p = "DataIntegrityProof" /\ p_vm p <> "" /\ p_purpose p <> "" /\ p_purpose p = o_purpose o
    /\ mget (dv_suites V) (p_suite p) = Some s
    /\ (p_expires p <> "" -> exists t, d_parse E (p_expires p) = Some t /\ gt_ns now <= gt_ns t)
    /\ (o_domain o <> "" -> o_domain o = p_domain p)
    /\ (o_challenge o <> "" -> o_challenge o = p_challenge p)
    /\ o_ptype o = "DataIntegrityProof".
Proof.
  intros Hstd. induction ps as [|pj ps IH]; intros o o' H.
  - cbn [verify_all] in H. sinv. split; [apply keeps_refl|]. intros ? [].
  - apply verify_all_cons in H as (o1 & H1 & H2). apply IH in H2 as [K F].
    apply verify_one_std in H1 as (p & s & vm & A1 & A2 & A3 & A4 & A5 & A6 & A7 & A8 & A9 & A10 & A11 & _); auto.
    destruct A10 as (K1 & _). split; [eapply keeps_trans; eauto|].
    intros q [<-|Hq]; [exists p, s; repeat (split; [auto|]); auto|].
    destruct K1 as (E1 & E2 & E3 & E4). rewrite <- E1, <- E2, <- E3, <- E4. apply F; auto.
Qed.

(** Documents whose proofs agree on method, suite and creation time, and either all or none have an expiry. *)
Definition frame (vmid suite created : string) (hasexp : bool) (p : dproof) : Prop :=
  p_vm p = vmid /\ p_suite p = suite /\ p_created p = created /\ (hasexp = negb (String.eqb (p_expires p) "")).
Definition in_frame (vmid suite created : string) (hasexp : bool) (pj : json) : Prop :=
  forall p, unmarshal_proof pj = Ok p -> frame vmid suite created hasexp p.
Definition fresh (o : popts) : Prop :=
  o_vmid o = "" /\ o_vm o = None /\ o_suite o = "" /\ o_created o = zero_time /\ o_expires o = zero_time.

(** states reachable from fresh options inside one frame *)
Record inv (E : dienv) (rs : option (string -> res ddoc)) (o0 : popts) (vmid suite created : string) (hasexp : bool)
    (o : popts) : Prop := {
  iv_keeps : keeps o0 o;
  iv_vmid : o_vmid o = "" \/ o_vmid o = vmid;
  iv_vm : o_vm o = None \/ (o_vmid o = vmid /\ exists v, o_vm o = Some v /\ vm_resolved rs (o_purpose o0) vmid v);
  iv_suite : o_suite o = "" \/ o_suite o = suite;
  iv_created : o_created o = zero_time \/ (created <> "" /\ d_parse E created = Some (o_created o));
  iv_expires : hasexp = false -> o_expires o = zero_time }.

Definition resolved (rs : option (string -> res ddoc)) (purpose id : string) : res dmethod :=
  match rs with
  | None => Err "ErrNoResolver"
  | Some r => let* d := did_doc_of_vm r id in get_vm_by_purpose purpose id d
  end.
Lemma vm_resolved_iff rs p id v : vm_resolved rs p id v <-> resolved rs p id = Ok v.
Proof.
  unfold vm_resolved, resolved. split.
  - intros (r & d & -> & Hd & Hv). rewrite Hd. auto.
  - destruct rs as [r|]; [|discriminate]. intros H. apply bind_ok in H as (d & Hd & Hv). eauto.
Qed.

(** the options handed to the suite, when everything before succeeds *)
Definition final_state (o0 : popts) (p : dproof) (vm : dmethod) (tc te : gtime) : popts :=
  {| o_purpose := o_purpose o0; o_vmid := p_vm p; o_vm := Some vm; o_ptype := o_ptype o0; o_suite := p_suite p;
     o_domain := o_domain o0; o_challenge := o_challenge o0; o_created := tc; o_expires := te |}.
Definition opt_parse (E : dienv) (s : string) : res gtime := if String.eqb s "" then Ok zero_time else parse_time E s.
Definition post_check (o2 : popts) (p : dproof) (r : res unit) : res unit :=
  let* _ := guard (String.eqb (o_domain o2) "" || String.eqb (o_domain o2) (p_domain p)) "ErrInvalidDomain" in
  let* _ := guard (String.eqb (o_challenge o2) "" || String.eqb (o_challenge o2) (p_challenge p)) "ErrInvalidChallenge" in
  r.
Definition pure_one (E : dienv) (V : dverifier) (now : gtime) (o0 : popts) (doc pj : json) : res unit :=
  let* p := unmarshal_proof pj in
  let* _ := guard (negb (String.eqb (p_type p) "" || String.eqb (p_vm p) "" || String.eqb (p_purpose p) ""))
                  "ErrMalformedProof" in
  let* _ := guard (String.eqb (p_type p) "DataIntegrityProof") "ErrWrongProofType" in
  let* s := match mget (dv_suites V) (p_suite p) with Some s => Ok s | None => Err "ErrUnsupportedSuite" end in
  let* _ := guard (negb (vs_req s && String.eqb (p_created p) "")) "ErrMalformedProof" in
  let* tc := opt_parse E (p_created p) in
  let* te := (if String.eqb (p_expires p) "" then Ok zero_time else
                let* t := parse_time E (p_expires p) in
                let* _ := guard (gt_ns now <=? gt_ns t) "ErrOutOfDate" in Ok t) in
  let* _ := guard (String.eqb (p_purpose p) (o_purpose o0)) "ErrMismatchedPurpose" in
  let* vm := resolved (dv_resolver V) (o_purpose o0) (p_vm p) in
  let '(o2, r) := vs_verify s doc p (final_state o0 p vm tc te) in
  post_check o2 p r.

Definition tame (s : vsuite) : Prop := forall doc p o, o_suite o <> "" -> fst (vs_verify s doc p o) = o.
Lemma sbind_fst {A B} (m : st A) (f : A -> st B) o : fst (m o) = o -> (forall a, fst (f a o) = o) -> fst (sbind m f o) = o.
Proof.
  unfold sbind. destruct (m o) as [o1 [a|e|]]; cbn; intros ->; auto.
Qed.
Lemma sret_fst {A} (r : res A) o : fst (sret r o) = o. Proof. reflexivity. Qed.
Lemma ecdsa_transform_fst E doc o : o_suite o <> "" -> fst (ecdsa_transform E doc o) = o.
Proof.
  intros Hn. unfold ecdsa_transform. apply sbind_fst.
  - unfold sput. cbn. destruct (String.eqb_spec (o_suite o) ""); [contradiction|auto].
  - intros _. repeat (apply sbind_fst; [reflexivity|intros ?]). destruct a2 as [[a2 h] k].
    repeat (apply sbind_fst; [reflexivity|intros ?]). reflexivity.
Qed.
Lemma eddsa_transform_fst E doc o : fst (eddsa_transform E doc o) = o.
Proof. unfold eddsa_transform. repeat (apply sbind_fst; [reflexivity|intros ?]). reflexivity. Qed.
Lemma ecdsa_tame E : tame (ecdsa_verifier E).
Proof.
  intros doc p o Hn. cbn [vs_verify ecdsa_verifier]. unfold suite_verify. apply sbind_fst.
  - apply ecdsa_transform_fst; auto.
  - intros [[? ?] ?]. apply sbind_fst; [reflexivity|]. reflexivity.
Qed.
Lemma eddsa_tame E : tame (eddsa_verifier E).
Proof.
  intros doc p o Hn. cbn [vs_verify eddsa_verifier]. unfold suite_verify. apply sbind_fst.
  - apply eddsa_transform_fst; auto.
  - intros [[? ?] ?]. apply sbind_fst; [reflexivity|]. reflexivity.
Qed.
Lemma std_tame E suites n s : std_suites E suites -> mget suites n = Some s -> tame s.
Proof. intros H Hs. destruct (H _ _ Hs) as [[-> _]|[-> _]]; [apply ecdsa_tame|apply eddsa_tame]. Qed.

Lemma popts_ext (a b : popts) : o_purpose a = o_purpose b -> o_vmid a = o_vmid b -> o_vm a = o_vm b ->
  o_ptype a = o_ptype b -> o_suite a = o_suite b -> o_domain a = o_domain b -> o_challenge a = o_challenge b ->
  o_created a = o_created b -> o_expires a = o_expires b -> a = b.
Proof. destruct a, b; cbn; intros; subst; reflexivity. Qed.

Section Eval.
  Variable I : popts -> Prop.
  Definition good (pr : popts * res unit) (r : res unit) : Prop := snd pr = r /\ I (fst pr).
  Lemma g_step {A} (m : st A) (f : A -> st unit) o o' a r : m o = (o', Ok a) -> good (f a o') r -> good (sbind m f o) r.
  Proof. unfold sbind. intros ->. auto. Qed.
  Lemma g_err {A} (m : st A) (f : A -> st unit) o o' e : m o = (o', Err e) -> I o' -> good (sbind m f o) (Err e).
  Proof. unfold sbind. intros ->. split; auto. Qed.
  Lemma g_panic {A} (m : st A) (f : A -> st unit) o o' : m o = (o', Panic) -> I o' -> good (sbind m f o) Panic.
  Proof. unfold sbind. intros ->. split; auto. Qed.
  Lemma g_guard b e (f : unit -> st unit) (g : unit -> res unit) o : I o -> (b = true -> good (f tt o) (g tt)) ->
    good (sbind (sguard b e) f o) (bind (guard b e) g).
  Proof. intros Hi H. destruct b; [apply H; auto|]. split; auto. Qed.
End Eval.
Lemma resolve_vm_eval rs id o : resolve_vm rs id o =
  match o_vm o with
  | Some _ => (o, Ok tt)
  | None => let o1 := if String.eqb (o_vmid o) "" then set_vmid o id else o in
            match resolved rs (o_purpose o1) (o_vmid o1) with
            | Ok v => (set_vm o1 v, Ok tt)
            | Err e => (o1, Err e)
            | Panic => (o1, Panic)
            end
  end.
Proof.
  unfold resolve_vm, sbind, sget, sput, sret, resolved. destruct (o_vm o); [reflexivity|]. cbv zeta.
  destruct rs as [r|]; [|reflexivity].
  generalize (if String.eqb (o_vmid o) "" then set_vmid o id else o). intros o1.
  destruct (did_doc_of_vm r (o_vmid o1)); cbn [bind]; auto.
Qed.
Lemma verify_one_eval E V now doc pj o0 o vmid suite created hasexp :
  std_suites E (dv_suites V) -> in_frame vmid suite created hasexp pj ->
  inv E (dv_resolver V) o0 vmid suite created hasexp o ->
  snd (verify_one E V now doc pj o) = pure_one E V now o0 doc pj /\
  inv E (dv_resolver V) o0 vmid suite created hasexp (fst (verify_one E V now doc pj o)).
Proof.
  intros Hstd Hfr Hinv. set (I := inv E (dv_resolver V) o0 vmid suite created hasexp) in *.
  change (good I (verify_one E V now doc pj o) (pure_one E V now o0 doc pj)).
  unfold verify_one, pure_one.
  destruct (unmarshal_proof pj) as [p|e|] eqn:Ep; [|split; [reflexivity|exact Hinv]..].
  specialize (Hfr p Ep). destruct Hfr as (F1 & F2 & F3 & F4).
  eapply g_step; [reflexivity|]. cbn [bind].
  apply g_guard; [auto|]. intros G1. apply g_guard; [auto|]. intros G2.
  destruct (mget (dv_suites V) (p_suite p)) as [s|] eqn:Es; [|split; [reflexivity|exact Hinv]].
  eapply g_step; [reflexivity|]. cbn [bind].
  eapply g_step; [reflexivity|].
  set (o1 := if String.eqb (o_suite o) "" then set_suite o (p_suite p) else o).
  assert (I1 : I o1 /\ o_suite o1 = suite).
  { destruct Hinv as [K I2 I3 I4 I5 I6]. subst o1. destruct (String.eqb_spec (o_suite o) "") as [e|n].
    - split; [|cbn; auto]. constructor; cbn; auto; try (unfold keeps in *; cbn; tauto).
    - split; [constructor; auto|]. destruct I4; congruence. }
  clearbody o1. clear Hinv o. destruct I1 as [I1 S1].
  apply g_guard; [auto|]. intros G3.
  eapply g_step; [reflexivity|].
  assert (Hp1 : o_purpose o1 = o_purpose o0) by (destruct I1 as [[K _] _ _ _ _ _]; auto).
  rewrite Hp1.
  (* created *)
  match goal with |- good _ (sbind ?m ?k o1) _ => set (mc := m); set (kc := k) end.
  assert (C : (exists tc o2, opt_parse E (p_created p) = Ok tc /\ mc o1 = (o2, Ok tt) /\
                I o2 /\ o_suite o2 = suite /\ o_created o2 = tc)
           \/ (exists e o2, opt_parse E (p_created p) = Err e /\ mc o1 = (o2, Err e) /\ I o2)).
  { subst mc. unfold opt_parse. rewrite F3. destruct I1 as [K I2 I3 I4 I5 I6].
    destruct (String.eqb_spec created "") as [Ec|Ec]; cbn [negb].
    - rewrite andb_false_r. left. exists zero_time, o1. split; [auto|]. split; [reflexivity|].
      split; [constructor; auto|]. split; [auto|]. destruct I5 as [I5|[I5 _]]; [auto|contradiction].
    - rewrite andb_true_r. destruct (is_zero (o_created o1)) eqn:Ez.
      + unfold sbind, sret, parse_time. destruct (d_parse E created) as [t|] eqn:Et.
        * left. exists t, (set_created o1 t). split; [auto|]. split; [reflexivity|].
          split; [|split; [cbn; auto|reflexivity]].
          constructor; cbn; auto; try (unfold keeps in *; cbn; tauto).
        * right. exists "ErrMalformedProof", o1. split; [auto|]. split; [reflexivity|]. constructor; auto.
          destruct I5 as [I5|[? I5]]; [auto|discriminate].
      + left. exists (o_created o1), o1. destruct I5 as [I5|[_ I5]].
        * exfalso. rewrite I5 in Ez. discriminate Ez.
        * split; [unfold parse_time; rewrite I5; auto|]. split; [reflexivity|].
          split; [constructor; auto|]. auto. }
  clearbody mc. destruct C as [(tc & o2 & -> & Hmc & I2 & S2 & T2)|(e & o2 & -> & Hmc & I2)].
  2:{ eapply g_err; eauto. }
  eapply g_step; [exact Hmc|]. subst kc. cbv beta. cbn [bind].
  clear Hmc mc I1 S1 Hp1 o1.
  (* expires *)
  match goal with |- good _ (sbind ?m ?k o2) (bind ?m' ?k') => set (mc := m); set (kc := k); set (pc := m'); set (pk := k') end.
  assert (X : (exists te o3, pc = Ok te /\ mc o2 = (o3, Ok tt) /\
                I o3 /\ o_suite o3 = suite /\ o_created o3 = tc /\ o_expires o3 = te)
           \/ (exists e o3, pc = Err e /\ mc o2 = (o3, Err e) /\ I o3)).
  { subst mc pc. destruct I2 as [K J2 J3 J4 J5 J6].
    destruct (String.eqb_spec (p_expires p) "") as [Ee|Ee]; cbn [negb] in *.
    - left. exists zero_time, o2. split; [auto|]. split; [reflexivity|]. split; [constructor; auto|]. auto.
    - unfold sguard, guard, sbind, sret, parse_time. destruct (d_parse E (p_expires p)) as [t|] eqn:Et; cbn [bind].
      2:{ right. eexists _, o2. split; [reflexivity|]. split; [reflexivity|]. constructor; auto. }
      destruct (gt_ns now <=? gt_ns t); cbn [bind].
      2:{ right. eexists _, o2. split; [reflexivity|]. split; [reflexivity|]. constructor; auto. }
      left. exists t, (set_expires o2 t). split; [auto|]. split; [reflexivity|].
      split; [|cbn; auto]. constructor; cbn; auto; try (unfold keeps in *; cbn; tauto).
      intros Hh. rewrite Hh in F4. discriminate F4. }
  clearbody mc pc. destruct X as [(te & o3 & -> & Hmc & I3 & S3 & T3 & X3)|(e & o3 & -> & Hmc & I3)].
  2:{ eapply g_err; eauto. }
  eapply g_step; [exact Hmc|]. subst kc pk. cbv beta. cbn [bind].
  clear Hmc mc I2 S2 T2 o2.
  apply g_guard; [auto|]. intros G5.
  (* method *)
  assert (R : (exists vm o4, resolved (dv_resolver V) (o_purpose o0) (p_vm p) = Ok vm
                 /\ resolve_vm (dv_resolver V) (p_vm p) o3 = (o4, Ok tt) /\ o4 = final_state o0 p vm tc te /\ I o4)
           \/ (exists e o4, resolved (dv_resolver V) (o_purpose o0) (p_vm p) = Err e
                 /\ resolve_vm (dv_resolver V) (p_vm p) o3 = (o4, Err e) /\ I o4)
           \/ (exists o4, resolved (dv_resolver V) (o_purpose o0) (p_vm p) = Panic
                 /\ resolve_vm (dv_resolver V) (p_vm p) o3 = (o4, Panic) /\ I o4)).
  { destruct I3 as [K J2 J3 J4 J5 J6]. rewrite resolve_vm_eval. cbv zeta.
    assert (Kp : o_purpose o3 = o_purpose o0) by (destruct K; auto).
    destruct (o_vm o3) as [v|] eqn:Ev.
    - left. destruct J3 as [J3|(J3 & v' & J3' & Hr)]; [congruence|]. injection J3' as ->.
      exists v', o3. apply vm_resolved_iff in Hr. rewrite F1. split; [auto|]. split; [reflexivity|].
      split.
      + destruct K as (K1 & K2 & K3 & K4). apply popts_ext; cbn; congruence.
      + constructor; auto. right. split; [auto|]. exists v'. split; [auto|]. apply vm_resolved_iff; auto.
    - set (o3' := if String.eqb (o_vmid o3) "" then set_vmid o3 (p_vm p) else o3).
      assert (I3' : I o3' /\ o_suite o3' = suite /\ o_created o3' = tc
               /\ o_expires o3' = te /\ o_vmid o3' = p_vm p /\ o_vm o3' = None).
      { subst o3'. destruct (String.eqb_spec (o_vmid o3) "") as [Ei|Ei].
        - cbn. split; [|auto 10]. constructor; cbn; auto; try (unfold keeps in *; cbn; tauto).
        - destruct J2 as [J2|J2]; [contradiction|]. split; [constructor; auto|]. repeat split; auto; try congruence. }
      fold o3'.
      clearbody o3'. destruct I3' as (I3' & S3' & T3' & X3' & M3' & N3').
      assert (Kp' : o_purpose o3' = o_purpose o0) by (destruct I3' as [[Kq _] _ _ _ _ _]; auto).
      rewrite M3', Kp'.
      destruct (resolved (dv_resolver V) (o_purpose o0) (p_vm p)) as [v|e|] eqn:Ed.
      2:{ right. left. exists e, o3'. auto. }
      2:{ right. right. exists o3'. auto. }
      left. exists v, (set_vm o3' v). split; [auto|]. split; [reflexivity|]. split.
      + destruct I3' as [(K1 & K2 & K3 & K4) _ _ _ _ _]. apply popts_ext; cbn; congruence.
      + destruct I3' as [K' J2' J3' J4' J5' J6']. constructor; cbn; auto; try (unfold keeps in *; cbn; tauto).
        right. split; [congruence|]. exists v. split; [auto|]. rewrite <- F1. apply vm_resolved_iff; auto. }
  destruct R as [(vm & o4 & -> & Hr & -> & I4)|[(e & o4 & -> & Hr & I4)|(o4 & -> & Hr & I4)]].
  2:{ eapply g_err; eauto. }
  2:{ eapply g_panic; eauto. }
  eapply g_step; [exact Hr|]. cbn [bind]. clear Hr.
  assert (Hne : o_suite (final_state o0 p vm tc te) <> "").
  { cbn. eapply std_names; eauto. }
  pose proof (std_tame _ _ _ _ Hstd Es doc p _ Hne) as Ht. cbv beta.
  destruct (vs_verify s doc p (final_state o0 p vm tc te)) as [o5 r5]. cbn [fst] in Ht. subst o5.
  unfold post_check. apply g_guard; [auto|]. intros _. apply g_guard; [auto|]. intros _. split; [reflexivity|auto].
Qed.

(** *** Whole documents inside one frame *)
Fixpoint pure_all (E : dienv) (V : dverifier) (now : gtime) (o0 : popts) (doc : json) (ps : list json) : res unit :=
  match ps with
  | [] => Ok tt
  | p :: ps' => let* _ := pure_one E V now o0 doc p in pure_all E V now o0 doc ps'
  end.
Lemma verify_all_eval E V now doc ps o0 vmid suite created hasexp : std_suites E (dv_suites V) ->
  Forall (in_frame vmid suite created hasexp) ps ->
  forall o, inv E (dv_resolver V) o0 vmid suite created hasexp o ->
  snd (verify_all E V now doc ps o) = pure_all E V now o0 doc ps /\
  inv E (dv_resolver V) o0 vmid suite created hasexp (fst (verify_all E V now doc ps o)).
Proof.
  intros Hstd HF. induction HF as [|pj ps Hf _ IH]; intros o Hi; cbn [verify_all pure_all].
  - split; [reflexivity|auto].
  - destruct (verify_one_eval E V now doc pj o0 o _ _ _ _ Hstd Hf Hi) as [H1 H2].
    unfold sbind. destruct (verify_one E V now doc pj o) as [o1 r1]. cbn [fst snd] in *. rewrite <- H1.
    destruct r1 as [[]|e|]; cbn [bind]; [apply IH; auto|split; auto|split; auto].
Qed.
Lemma fresh_inv E rs o vmid suite created hasexp : fresh o -> inv E rs o vmid suite created hasexp o.
Proof.
  intros (H1 & H2 & H3 & H4 & H5). constructor; auto. apply keeps_refl.
Qed.
Definition doc_proofs (doc : json) : list json := match doc_proof doc with Some pj => gjson_array pj | None => [] end.
Lemma verify_proof_eval E V now doc o0 o vmid suite created hasexp : std_suites E (dv_suites V) ->
  Forall (in_frame vmid suite created hasexp) (doc_proofs doc) ->
  inv E (dv_resolver V) o0 vmid suite created hasexp o ->
  snd (verify_proof E V now doc o) =
    (match doc_proof doc with None => Err "ErrMissingProof"
     | Some _ => pure_all E V now o0 (del_proof doc) (doc_proofs doc) end) /\
  inv E (dv_resolver V) o0 vmid suite created hasexp (fst (verify_proof E V now doc o)).
Proof.
  intros Hstd HF Hi. unfold verify_proof, doc_proofs in *. destruct (doc_proof doc) as [pj|]; [|split; [reflexivity|auto]].
  apply verify_all_eval; auto.
Qed.

(** a run of calls with one options value *)
Fixpoint after_calls (E : dienv) (V : dverifier) (calls : list (gtime * json)) (o : popts) : popts :=
  match calls with
  | [] => o
  | (now, doc) :: cs => after_calls E V cs (fst (verify_proof E V now doc o))
  end.
Lemma after_calls_inv E V calls o0 vmid suite created hasexp : std_suites E (dv_suites V) ->
  Forall (fun c => Forall (in_frame vmid suite created hasexp) (doc_proofs (snd c))) calls ->
  forall o, inv E (dv_resolver V) o0 vmid suite created hasexp o ->
  inv E (dv_resolver V) o0 vmid suite created hasexp (after_calls E V calls o).
Proof.
  intros Hstd HF. induction HF as [|[now doc] cs Hf _ IH]; intros o Hi; cbn [after_calls]; auto.
  apply IH. apply verify_proof_eval; auto.
Qed.

(** what acceptance of one proof means *)
Lemma guard_true b e a : guard b e = Ok a -> b = true.
Proof. unfold guard. destruct b; [auto|discriminate]. Qed.
Lemma opt_parse_text E s t : opt_parse E s = Ok t -> time_text E s (opt_time E t).
Proof.
  unfold opt_parse, time_text, opt_time. destruct (String.eqb_spec s ""); [intros [= <-]; left; auto|].
  intros H. apply parse_time_ok in H. right. eauto.
Qed.
Lemma pure_one_ok E V now o0 m pj : std_suites E (dv_suites V) -> pure_one E V now o0 (JObj m) pj = Ok tt ->
  exists p vm r c x, unmarshal_proof pj = Ok p /\ p_purpose p = o_purpose o0
    /\ dv_resolver V = Some r /\ names r (o_purpose o0) (p_vm p) vm
    /\ time_text E (p_created p) c /\ time_text E (p_expires p) x
    /\ (o_domain o0 = "" \/ o_domain o0 = p_domain p) /\ (o_challenge o0 = "" \/ o_challenge o0 = p_challenge p)
    /\ signed_by E (p_suite p) vm m
         (config (context_of m) (p_suite p) (p_vm p) (p_purpose p) c x (o_challenge o0) (o_domain o0)) (p_value p).
Proof.
  intros Hstd H. unfold pure_one in H.
  apply bind_ok in H as (p & Hp & H). apply bind_ok in H as (_ & _ & H). apply bind_ok in H as (_ & _ & H).
  apply bind_ok in H as (s & Hs & H). destruct (mget (dv_suites V) (p_suite p)) as [s'|] eqn:Es; [|discriminate].
  injection Hs as ->. apply bind_ok in H as (_ & _ & H).
  apply bind_ok in H as (tc & Hc & H). apply bind_ok in H as (te & He & H). apply bind_ok in H as (u1 & Hpu & H).
  apply bind_ok in H as (vm & Hvm & H). apply guard_true in Hpu. apply String.eqb_eq in Hpu.
  destruct (vs_verify s (JObj m) p (final_state o0 p vm tc te)) as [o2 r2] eqn:Ev.
  unfold post_check in H. apply bind_ok in H as (u2 & Hd & H). apply bind_ok in H as (u3 & Hch & H). subst r2.
  apply guard_true in Hd, Hch.
  assert (Hne : o_suite (final_state o0 p vm tc te) <> "") by (cbn; eapply std_names; eauto).
  destruct (std_verify_ok _ _ _ _ _ _ _ _ Hstd Es Hne Ev) as (-> & _ & vm' & Hv' & Hsig).
  cbn in Hv'. injection Hv' as <-.
  apply vm_resolved_iff, vm_resolved_names in Hvm as (r & Hr & Hn).
  exists p, vm, r, (opt_time E tc), (opt_time E te). split; [auto|]. split; [auto|]. split; [auto|]. split; [auto|].
  split; [apply opt_parse_text; auto|].
  split. { apply opt_parse_text. unfold opt_parse. destruct (String.eqb (p_expires p) ""); [auto|].
           apply bind_ok in He as (t & Ht & He). apply bind_ok in He as (_ & _ & [= ->]). auto. }
  cbn in Hd, Hch. apply orb_true_iff in Hd, Hch. rewrite !String.eqb_eq in Hd, Hch.
  split; [auto|]. split; [auto|].
  unfold config_of in Hsig. cbn in Hsig. rewrite Hpu. exact Hsig.
Qed.
Lemma pure_all_ok E V now o0 doc ps pj : pure_all E V now o0 doc ps = Ok tt -> In pj ps ->
  pure_one E V now o0 doc pj = Ok tt.
Proof.
  induction ps as [|x xs IH]; cbn [pure_all]; [intros _ []|].
  intros H. apply bind_ok in H as ([] & H1 & H2). intros [<-|Hi]; auto.
Qed.

(** *** encoding and decoding of a proof *)
Lemma unmarshal_marshal p : unmarshal_proof (marshal_proof p) = Ok p.
Proof.
  unfold unmarshal_proof, marshal_proof, opt_field.
  destruct p as [f1 f2 f3 f4 f5 f6 f7 f8 f9 f10 f11]; cbn [p_id p_type p_suite p_purpose p_vm p_created p_expires p_domain p_challenge p_value p_prev].
  destruct (String.eqb_spec f1 ""), (String.eqb_spec f3 ""), (String.eqb_spec f6 ""), (String.eqb_spec f7 ""),
    (String.eqb_spec f8 ""), (String.eqb_spec f9 ""), (String.eqb_spec f11 ""); subst; vm_compute; reflexivity.
Qed.

(** *** signing *)
Lemma transform_create E signer tr name doc o o' p : suite_create E signer tr name doc o = (o', Ok p) ->
  exists msg a k sig vm, tr doc o = (o', Ok (msg, a, k)) /\ signer (key_jwk k) msg = Ok sig /\ o_vm o' = Some vm /\
   p = {| p_id := ""; p_type := "DataIntegrityProof"; p_suite := name o'; p_purpose := o_purpose o';
              p_vm := dm_id vm; p_created := d_fmt E (o_created o'); p_expires := time_field E (o_expires o');
              p_domain := o_domain o'; p_challenge := o_challenge o'; p_value := d_mbenc E sig; p_prev := "" |}.
Proof.
  unfold suite_create. intros H. apply sbind_ok in H as ([[msg a] k] & o1 & Ht & H). sinv.
  match goal with H : match o_vm ?oo with _ => _ end = _ |- _ => destruct (o_vm oo) as [vm|] eqn:Evm; [|discriminate];
    injection H as <- end.
  match goal with H : Ok _ = Ok _ |- _ => injection H as <- end.
  do 5 eexists. eauto.
Qed.

Lemma add_proof_ok S doc o o' out : add_proof S doc o = (o', Ok out) ->
  exists s o1 p, mget (dg_suites S) (o_suite o) = Some s /\ resolve_vm (dg_resolver S) "" o = (o1, Ok tt)
    /\ ss_create s doc o1 = (o', Ok p)
    /\ p_type p <> "" /\ p_purpose p <> "" /\ p_vm p <> "" /\ (ss_req s = true -> p_created p <> "")
    /\ (o_domain o' <> "" -> p_domain p = o_domain o') /\ (o_challenge o' <> "" -> p_challenge p = o_challenge o')
    /\ out = set_proof doc (marshal_proof p).
Proof.
  unfold add_proof. intros H. sinv.
  match goal with H : match mget ?m ?k with _ => _ end = _ |- _ => destruct (mget m k) as [s|] eqn:Es; [|discriminate];
    injection H as <- end.
  match goal with H : Ok _ = Ok out |- _ => injection H as <- end.
  match goal with H : ss_create _ _ _ = (_, Ok ?q) |- _ => rename q into p end.
  match goal with H : resolve_vm _ _ _ = (?q, Ok ?u) |- _ => rename q into o1; destruct u end.
  repeat match goal with H : negb _ = true |- _ => apply negb_true_iff in H end.
  repeat match goal with H : (_ || _)%bool = false |- _ => apply orb_false_iff in H; destruct H end.
  repeat match goal with H : String.eqb _ _ = false |- _ => apply String.eqb_neq in H end.
  exists s, o1, p. do 6 (split; [solve [auto]|]).
  split. { intros Hr. match goal with H : (_ && _)%bool = false |- _ => rewrite Hr, andb_true_r in H; apply String.eqb_neq in H; auto end. }
  repeat match goal with H : (_ || _)%bool = true |- _ => apply orb_true_iff in H; rewrite !String.eqb_eq in H end.
  split; [intros; intuition congruence|]. split; [intros; intuition congruence|]. reflexivity.
Qed.

(** *** sign then verify *)
Lemma mdel_mset_new {V} (m : gomap V) k v : mget m k = None -> mdel (mset m k v) k = m.
Proof.
  induction m as [|[k' v'] m IH]; cbn; [rewrite String.eqb_refl; reflexivity|].
  destruct (String.eqb k k') eqn:E; [discriminate|]. intros H. cbn. rewrite E, IH; auto.
Qed.
Lemma ecdsa_transform_same E doc o o2 : o_suite o <> "" -> o_suite o2 = o_suite o -> o_vm o2 = o_vm o ->
  o_ptype o2 = o_ptype o -> (forall ctx s, proof_config E ctx s o2 = proof_config E ctx s o) ->
  snd (ecdsa_transform E doc o2) = snd (ecdsa_transform E doc o).
Proof.
  intros Hn Hs Hv Hp Hc. unfold ecdsa_transform, sbind, sput, sret, sget, sguard, guard, sret.
  rewrite Hs. destruct (String.eqb_spec (o_suite o) ""); [contradiction|].
  rewrite Hv, Hp, Hs. destruct (doc_map doc); [|reflexivity..]. destruct (o_vm o); [|reflexivity].
  destruct (ecdsa_key E d) as [[[a1 h] k]|e|]; [|reflexivity..].
  destruct (_ && _)%bool; [|reflexivity]. destruct (d_canon E h a); [|reflexivity..].
  rewrite Hc. destruct (d_canon E h (proof_config E _ _ o)); reflexivity.
Qed.
Lemma eddsa_transform_same E doc o o2 : o_suite o2 = o_suite o -> o_vm o2 = o_vm o ->
  o_ptype o2 = o_ptype o -> (forall ctx s, proof_config E ctx s o2 = proof_config E ctx s o) ->
  snd (eddsa_transform E doc o2) = snd (eddsa_transform E doc o).
Proof.
  intros Hs Hv Hp Hc. unfold eddsa_transform, sbind, sput, sret, sget, sguard, guard, sret.
  rewrite Hv, Hp, Hs. destruct (doc_map doc); [|reflexivity..]. destruct (o_vm o); [|reflexivity].
  destruct (eddsa_key d) as [k|e|]; [|reflexivity..].
  destruct (_ && _)%bool; [|reflexivity]. destruct (d_canon E SHA256 a); [|reflexivity..].
  rewrite Hc. destruct (d_canon E SHA256 (proof_config E _ _ o)); reflexivity.
Qed.
Lemma suite_verify_from E tr doc p o msg a k sig :
  snd (tr doc o) = Ok (msg, a, k) -> d_mbdec E (p_value p) = Some sig -> d_verify E a k msg sig = true ->
  snd (suite_verify E tr doc p o) = Ok tt.
Proof.
  intros Ht Hd Hv. unfold suite_verify, sbind, sret, sguard, guard, sret.
  destruct (tr doc o) as [o1 r1]. cbn in Ht. subst r1. rewrite Hd, Hv. reflexivity.
Qed.

(** signer and verifier suites that belong together, for a suite name *)
Inductive paired (E : dienv) (sg : option jwk -> string -> res string) : string -> ssuite -> vsuite -> Prop :=
| pr_ecdsa n : In n ecdsa_types -> paired E sg n (ecdsa_signer E sg) (ecdsa_verifier E)
| pr_eddsa : paired E sg "eddsa-rdfc-2022" (eddsa_signer E sg) (eddsa_verifier E).

Lemma sign_then_verify E sg S V now m o o' out ov ss vs :
  paired E sg (o_suite o) ss vs ->
  mget (dg_suites S) (o_suite o) = Some ss -> mget (dv_suites V) (o_suite o) = Some vs -> std_suites E (dv_suites V) ->
  dg_resolver S = dv_resolver V ->
  o_vm o = None -> mget m "proof" = None ->
  add_proof S (JObj m) o = (o', Ok out) ->
  (forall vm, vm_resolved (dv_resolver V) (o_purpose o) (o_vmid o) vm -> dm_id vm = o_vmid o /\
     forall a h k msg sig, suite_key E (o_suite o) vm a h k -> sg (key_jwk k) msg = Ok sig -> d_verify E a k msg sig = true) ->
  (forall s, d_mbdec E (d_mbenc E s) = Some s) ->
  (forall t, t = o_created o \/ t = o_expires o ->
     d_fmt E t <> "" /\ exists t', d_parse E (d_fmt E t) = Some t' /\ is_zero t' = is_zero t /\ d_fmt E t' = d_fmt E t) ->
  (is_zero (o_expires o) = false -> forall t', d_parse E (d_fmt E (o_expires o)) = Some t' -> gt_ns now <= gt_ns t') ->
  fresh ov -> keeps o ov ->
  snd (verify_proof E V now out ov) = Ok tt.
Proof.
  intros Hpair Hss Hvs Hstd Hrs Hovm Hnp Hadd Hvm Hmb Htime Hexp Hfresh Hkeep.
  apply add_proof_ok in Hadd as (s & o1 & p & Hs & Hr & Hc & Hty & Hpu & Hpv & _ & _ & _ & ->).
  rewrite Hss in Hs. injection Hs as <-.
  rewrite resolve_vm_eval, Hovm in Hr. cbv zeta in Hr.
  set (oa := if String.eqb (o_vmid o) "" then set_vmid o "" else o) in *.
  assert (Hoa : oa = o).
  { subst oa. destruct (String.eqb_spec (o_vmid o) "") as [e|]; [|auto]. apply popts_ext; cbn; auto. }
  rewrite Hoa in Hr. clear oa Hoa.
  destruct (resolved (dg_resolver S) (o_purpose o) (o_vmid o)) as [vm|e|] eqn:Er; [|discriminate..].
  injection Hr as <-. rewrite Hrs in Er. apply vm_resolved_iff in Er.
  destruct (Hvm _ Er) as [Hid Hkey].
  (* the proof that was made *)
  assert (Hmade : exists msg a h k sig, o' = set_vm o vm /\
      suite_key E (o_suite o) vm a h k /\ sg (key_jwk k) msg = Ok sig /\
      (forall o2, o_suite o2 = o_suite o -> o_vm o2 = Some vm -> o_ptype o2 = o_ptype o ->
         (forall ctx s, proof_config E ctx s o2 = proof_config E ctx s (set_vm o vm)) ->
         d_mbdec E (p_value p) = Some sig -> d_verify E a k msg sig = true ->
         snd (vs_verify vs (JObj m) p o2) = Ok tt) /\
      p = {| p_id := ""; p_type := "DataIntegrityProof"; p_suite := o_suite o; p_purpose := o_purpose o;
              p_vm := dm_id vm; p_created := d_fmt E (o_created o); p_expires := time_field E (o_expires o);
              p_domain := o_domain o; p_challenge := o_challenge o; p_value := d_mbenc E sig; p_prev := "" |}).
  { inversion Hpair; subst ss vs.
    - cbn [ss_create ecdsa_signer] in Hc. apply transform_create in Hc as (msg & a & k & sig & vm' & Ht & Hsig & Hv' & ->).
      pose proof Ht as Ht0. apply ecdsa_transform_ok in Ht as (-> & _ & _ & vm2 & h & Hv2 & Hk & _).
      2:{ cbn. simpl in H. destruct H as [<-|[<-|[]]]; discriminate. }
      cbn in Hv', Hv2. injection Hv' as <-. injection Hv2 as <-.
      exists msg, a, h, k, sig. split; [auto|]. split; [auto|]. split; [auto|]. split; [|reflexivity].
      intros o2 E1 E2 E3 E4 E5 E6. cbn [vs_verify ecdsa_verifier]. eapply suite_verify_from; eauto.
      rewrite (ecdsa_transform_same E (JObj m) (set_vm o vm) o2); auto; [rewrite Ht0; reflexivity|].
      cbn. simpl in H. destruct H as [<-|[<-|[]]]; discriminate.
    - cbn [ss_create eddsa_signer] in Hc. apply transform_create in Hc as (msg & a & k & sig & vm' & Ht & Hsig & Hv' & ->).
      pose proof Ht as Ht0. apply eddsa_transform_ok in Ht as (-> & _ & _ & vm2 & h & Hv2 & Hk & _).
      cbn in Hv', Hv2. injection Hv' as <-. injection Hv2 as <-.
      exists msg, a, h, k, sig. split; [auto|]. split; [rewrite H0; exact Hk|]. split; [auto|].
      split; [|reflexivity].
      intros o2 E1 E2 E3 E4 E5 E6. cbn [vs_verify eddsa_verifier]. eapply suite_verify_from; eauto.
      rewrite (eddsa_transform_same E (JObj m) (set_vm o vm) o2); auto; [rewrite Ht0; reflexivity|cbn; congruence]. }
  destruct Hmade as (msg & a & h & k & sig & -> & Hsk & Hsig & Hver & Ep).
  assert (Hframe : Forall (in_frame (p_vm p) (p_suite p) (p_created p) (negb (String.eqb (p_expires p) "")))
            (doc_proofs (JObj (mset m "proof" (marshal_proof p))))).
  { unfold doc_proofs. cbn [doc_proof]. rewrite mget_mset. cbn [gjson_array marshal_proof String.eqb].
    constructor; [|constructor]. intros q Hq. fold (marshal_proof p) in Hq. rewrite unmarshal_marshal in Hq.
    injection Hq as <-. unfold frame; auto. }
  cbn [set_proof].
  destruct (verify_proof_eval E V now _ ov ov _ _ _ _ Hstd Hframe (fresh_inv _ _ _ _ _ _ _ Hfresh)) as [He _].
  rewrite He. unfold doc_proofs, del_proof. cbn [doc_proof]. rewrite mget_mset, String.eqb_refl, mdel_mset_new by auto.
  replace (gjson_array (marshal_proof p)) with [marshal_proof p] by reflexivity. cbn [pure_all].
  enough (pure_one E V now ov (JObj m) (marshal_proof p) = Ok tt) as -> by reflexivity.
  destruct Hkeep as (K1 & K2 & K3 & K4).
  unfold pure_one. rewrite unmarshal_marshal. cbn [bind].
  replace (String.eqb (p_type p) "") with false by (symmetry; apply String.eqb_neq; auto).
  replace (String.eqb (p_vm p) "") with false by (symmetry; apply String.eqb_neq; auto).
  replace (String.eqb (p_purpose p) "") with false by (symmetry; apply String.eqb_neq; auto).
  cbn [orb negb guard bind].
  assert (Pt : p_type p = "DataIntegrityProof") by (rewrite Ep; reflexivity).
  assert (Ps : p_suite p = o_suite o) by (rewrite Ep; reflexivity).
  assert (Pp : p_purpose p = o_purpose o) by (rewrite Ep; reflexivity).
  assert (Pv : p_vm p = dm_id vm) by (rewrite Ep; reflexivity).
  assert (Pc : p_created p = d_fmt E (o_created o)) by (rewrite Ep; reflexivity).
  assert (Px : p_expires p = time_field E (o_expires o)) by (rewrite Ep; reflexivity).
  assert (Pd : p_domain p = o_domain o) by (rewrite Ep; reflexivity).
  assert (Pch : p_challenge p = o_challenge o) by (rewrite Ep; reflexivity).
  assert (Pval : p_value p = d_mbenc E sig) by (rewrite Ep; reflexivity).
  clear Ep. rewrite Pt, Ps, Hvs. cbn [String.eqb Ascii.eqb Bool.eqb guard bind].
  assert (Hreq : vs_req vs = false) by (inversion Hpair; reflexivity).
  rewrite Hreq. cbn [andb negb guard bind].
  destruct (Htime (o_created o)) as (Hfc & tc & Hpc & Hzc & Hcc); auto.
  unfold opt_parse. rewrite Pc. replace (String.eqb (d_fmt E (o_created o)) "") with false by (symmetry; apply String.eqb_neq; auto).
  unfold parse_time at 1. rewrite Hpc. cbn [bind].
  assert (Hx : exists te, (if String.eqb (p_expires p) "" then Ok zero_time else
                let* t := parse_time E (p_expires p) in
                let* _ := guard (gt_ns now <=? gt_ns t) "ErrOutOfDate" in Ok t) = Ok te /\
              opt_time E te = opt_time E (o_expires o)).
  { rewrite Px. unfold time_field, opt_time. destruct (is_zero (o_expires o)) eqn:Ez.
    - exists zero_time. cbn. auto.
    - destruct (Htime (o_expires o)) as (Hfx & tx & Hpx & Hzx & Hxx); auto.
      replace (String.eqb (d_fmt E (o_expires o)) "") with false by (symmetry; apply String.eqb_neq; auto).
      exists tx. unfold parse_time. rewrite Hpx. cbn [bind].
      specialize (Hexp eq_refl tx Hpx). apply Z.leb_le in Hexp. rewrite Hexp. cbn [guard bind].
      rewrite Hzx, Ez, Hxx. auto. }
  destruct Hx as (te & -> & Hte). cbn [bind].
  rewrite Pp, K1, String.eqb_refl. cbn [guard bind].
  apply vm_resolved_iff in Er. rewrite Pv, Hid, Er. cbn [bind].
  destruct (vs_verify vs (JObj m) p (final_state ov p vm tc te)) as [o5 r5] eqn:Ev.
  assert (r5 = Ok tt).
  { change r5 with (snd (o5, r5)). rewrite <- Ev. apply Hver; auto; cbn [final_state o_suite o_vm o_ptype].
    - intros ctx s. rewrite !proof_config_eq. cbn. rewrite Hte, Pv, Hid, K1, K2, K3.
      unfold opt_time at 1. rewrite Hzc, Hcc. reflexivity.
    - rewrite Pval. apply Hmb.
    - eapply Hkey; eauto. }
  subst r5.
  assert (o5 = final_state ov p vm tc te).
  { change o5 with (fst (o5, Ok tt : res unit)). rewrite <- Ev. eapply std_tame; eauto. cbn. rewrite Ps. eapply std_names; eauto. }
  subst o5. unfold post_check. cbn. rewrite K2, K3, Pd, Pch, !String.eqb_refl, !orb_true_r. reflexivity.
Qed.
