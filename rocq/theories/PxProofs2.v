(** Limiting the disclosure succeeds. *)
From Verif Require Import GoBase PexSpec PexModel PexCompact PexProofs StrLemmas PexLimit StatusModel PxSpec JwtSpec DiSpec VcSpec VcModel VcParse BbsModel PxModel PxProofs.

Lemma room_put : forall p d v, Forall step_ok p -> room d p -> exists d', sj_put p d v = Ok d'.
Proof.
  induction p as [|k p IH]; intros d v H Hr; [eexists; reflexivity|]. inversion H as [|? ? Hk Hp]; subst. cbn [sj_put room] in *.
  destruct d as [| | | |l|m]; try (eexists; reflexivity).
  - rewrite (step_index k Hk). destruct (index_of k) as [n|]; [|destruct Hr]. destruct (nth_error l n) as [x|]; [|eexists; reflexivity].
    destruct (IH x v Hp Hr) as (d' & ->). eexists; reflexivity.
  - destruct (mget m k) as [x|]; [|eexists; reflexivity]. destruct (IH x v Hp Hr) as (d' & ->). eexists; reflexivity.
Qed.
Lemma look_room : forall q d x, look d q = Some x -> room d q.
Proof.
  induction q as [|k q IH]; intros d x H; [exact I|]. cbn [look room] in *. destruct d as [| | | |l|m]; try exact I.
  - destruct (index_of k) as [n|]; [|discriminate]. destruct (nth_error l n); [|exact I]. eapply IH; eassumption.
  - destruct (mget m k); [|exact I]. eapply IH; eassumption.
Qed.
(** Two positions part at a step of the same kind. *)
Definition parts (p q : list string) : Prop := exists c a b r s, p = (c ++ a :: r)%list /\ q = (c ++ b :: s)%list /\ a <> b /\
  (index_of a = None <-> index_of b = None).
Lemma parts_cons k p q : parts (k :: p) (k :: q) -> parts p q.
Proof.
  intros (c & a & b & r & s & E1 & E2 & Hn & Hk). destruct c as [|x c]; cbn in E1, E2.
  - injection E1 as -> ->. injection E2 as -> ->. congruence.
  - injection E1 as -> ->. injection E2 as ->. exists c, a, b, r, s. auto.
Qed.
Lemma parts_kind k p k' q : parts (k :: p) (k' :: q) -> k <> k' -> (index_of k = None <-> index_of k' = None).
Proof.
  intros (c & a & b & r & s & E1 & E2 & Hn & Hk) Hne. destruct c as [|x c]; cbn in E1, E2.
  - injection E1 as -> ->. injection E2 as -> ->. assumption.
  - injection E1 as -> ->. injection E2 as -> ->. congruence.
Qed.
Lemma parts_nil p : ~ parts p [].
Proof. intros (c & a & b & r & s & _ & E & _). destruct c; discriminate. Qed.
Lemma parts_nil_l p : ~ parts [] p.
Proof. intros (c & a & b & r & s & E & _). destruct c; discriminate. Qed.
Lemma room_build : forall p v q, Forall step_ok p -> Forall step_ok q -> parts p q -> room (sj_build p v) q.
Proof.
  induction p as [|k p IH]; intros v q Hp Hq Ha; [now apply parts_nil_l in Ha|]. destruct q as [|k' q]; [exact I|].
  inversion Hp as [|? ? Hk Hp']; subst. inversion Hq as [|? ? Hk' Hq']; subst. cbn [sj_build]. pose proof (step_digits k Hk) as Hd.
  destruct (string_dec k k') as [<-|Hne].
  - destruct (digits_val 0 k) as [z|].
    + cbn [room]. rewrite Hd, nth_build, Nat.ltb_irrefl, Nat.eqb_refl. apply IH; auto. eapply parts_cons; eassumption.
    + destruct Hd as (_ & _ & Hd). destruct (String.eqb_spec k "-1"); [contradiction|]. cbn [room mget]. rewrite String.eqb_refl.
      apply IH; auto. eapply parts_cons; eassumption.
  - pose proof (parts_kind k p k' q Ha Hne) as Hkind. destruct (digits_val 0 k) as [z|].
    + cbn [room]. destruct (index_of k') as [n'|] eqn:En'; [|destruct Hkind as [_ Hkind]; rewrite Hkind in Hd by reflexivity; discriminate].
      rewrite nth_build. destruct (n' <? Z.to_nat z)%nat; [destruct q; exact I|]. destruct (Nat.eqb_spec n' (Z.to_nat z)) as [->|]; [|exact I].
      apply index_of_inv in En', Hd. congruence.
    + destruct Hd as (_ & _ & Hd). destruct (String.eqb_spec k "-1"); [contradiction|]. cbn [room mget].
      destruct (String.eqb_spec k' k) as [->|]; [congruence|exact I].
Qed.
Lemma room_keep : forall p d v d' q, Forall step_ok p -> Forall step_ok q -> sj_put p d v = Ok d' -> room d q -> parts p q -> room d' q.
Proof.
  induction p as [|k p IH]; intros d v d' q Hp Hq H Hr Ha; [now apply parts_nil_l in Ha|]. destruct q as [|k' q]; [exact I|].
  assert (B : room (sj_build (k :: p) v) (k' :: q)) by now apply room_build.
  inversion Hp as [|? ? Hk Hp']; subst. inversion Hq as [|? ? Hk' Hq']; subst. cbn [sj_put] in H.
  destruct d as [| | | |l|m]; try (injection H as <-; exact B).
  - rewrite (step_index k Hk) in H. destruct (index_of k) as [n|] eqn:En.
    + cbn [room] in Hr. destruct (index_of k') as [n'|] eqn:En'; [|destruct Hr]. destruct (nth_error l n) as [x|] eqn:Ex.
      * destruct (sj_put p x v) as [y| |] eqn:Ey; try discriminate. cbn in H. injection H as <-. cbn [room]. rewrite En', nth_list_set.
        destruct (Nat.eqb_spec n' n) as [->|]; [|assumption]. rewrite Ex in *. assert (k' = k) by (apply index_of_inv in En, En'; congruence). subst k'.
        eapply IH; try eassumption. eapply parts_cons; eassumption.
      * injection H as <-. cbn [room]. apply nth_error_None in Ex. rewrite En', nth_pad by assumption.
        destruct (Nat.ltb_spec n' (List.length l)); [assumption|]. destruct (n' <? n)%nat; [destruct q; exact I|].
        destruct (Nat.eqb_spec n' n) as [->|]; [|exact I]. assert (k' = k) by (apply index_of_inv in En, En'; congruence). subst k'.
        apply room_build; auto. eapply parts_cons; eassumption.
    + destruct (_ || _)%bool eqn:Eb; [|discriminate]. exfalso. pose proof (step_digits k Hk) as Hd.
      destruct (digits_val 0 k) as [z|]; [congruence|]. destruct Hd as (_ & A & B'). apply orb_true_iff in Eb. rewrite !String.eqb_eq in Eb. tauto.
  - cbn [room] in Hr. destruct (mget m k) as [x|] eqn:Ex.
    + destruct (sj_put p x v) as [y| |] eqn:Ey; try discriminate. cbn in H. injection H as <-. cbn [room]. rewrite mget_mset.
      destruct (String.eqb_spec k' k) as [->|]; [|assumption]. rewrite Ex in Hr. eapply IH; try eassumption. eapply parts_cons; eassumption.
    + injection H as <-. cbn [room mget]. destruct (String.eqb_spec k' k) as [->|]; [|assumption]. apply room_build; auto. eapply parts_cons; eassumption.
Qed.
Lemma puts_ok : forall ops d, Forall (fun o => Forall step_ok (fst o)) ops -> (forall p v, In (p, v) ops -> room d p) ->
  (forall p v q w, In (p, v) ops -> In (q, w) ops -> p = q \/ parts p q) -> exists d', puts ops d = Ok d'.
Proof.
  induction ops as [|[p v] ops IH]; intros d Ho Hr Hs; [eexists; reflexivity|]. inversion Ho as [|? ? Hp Hops]; subst. cbn [fst puts] in *.
  destruct (room_put p d v Hp (Hr p v (or_introl eq_refl))) as (d1 & E1). rewrite E1. cbn [bind]. apply IH; auto.
  - intros q w Hi. destruct (Hs p v q w (or_introl eq_refl) (or_intror Hi)) as [<-|Ha].
    + eapply look_room. eapply put_get; eassumption.
    + eapply room_keep; try eassumption; [|eapply Hr; right; exact Hi]. rewrite Forall_forall in Hops. exact (Hops _ Hi).
  - intros; eapply Hs; right; eassumption.
Qed.

(** ** From paths of the source to positions of the document *)
Lemma pkey_dec (a b : pkey) : {a = b} + {a <> b}.
Proof. decide equality; [apply Nat.eq_dec|apply string_dec]. Qed.
Lemma prefix_or_part : forall p q : list pkey, (exists r, p = (q ++ r)%list) \/ (exists r, q = (p ++ r)%list) \/
  exists c a b r s, p = (c ++ a :: r)%list /\ q = (c ++ b :: s)%list /\ a <> b.
Proof.
  induction p as [|a p IH]; intros q; [right; left; now exists q|]. destruct q as [|b q]; [left; eexists; reflexivity|].
  destruct (pkey_dec a b) as [<-|Hne].
  - destruct (IH q) as [(r & ->)|[(r & ->)|(c & x & y & r & s & -> & -> & Hne)]].
    + left; now exists r.
    + right; left; now exists r.
    + right; right. exists (a :: c), x, y, r, s. auto.
  - right; right. exists [], a, b, p, q. auto.
Qed.
Definition same_kind (a b : pkey) : Prop := match a, b with KName _, KName _ | KIdx _, KIdx _ => True | _, _ => False end.
Lemma located_kind : forall c j a b r s, located j (c ++ a :: r)%list -> located j (c ++ b :: s)%list -> same_kind a b.
Proof.
  induction c as [|k c IH]; intros j a b r s H1 H2; cbn [app] in *.
  - destruct a, b; cbn in *; try exact I; destruct H1 as (? & ? & -> & _), H2 as (? & ? & E & _); discriminate.
  - destruct k as [n|x]; cbn in H1, H2; destruct H1 as (? & ? & -> & E1 & H1), H2 as (? & ? & [= <-] & E2 & H2); rewrite E1 in E2; injection E2 as <-; eauto.
Qed.
Lemma renumber_app rank : forall c pre r, renumber rank pre (c ++ r)%list = (renumber rank pre c ++ renumber rank (pre ++ c) r)%list.
Proof.
  induction c as [|[n|s] c IH]; intros pre r; cbn [app renumber]; [now rewrite app_nil_r| |]; rewrite IH, <- app_assoc; reflexivity.
Qed.
Definition wild_free (s : string) : Prop := existsb wild (list_ascii_of_string s) = false.
Lemma wild_app a b : wild_free a -> wild_free b -> wild_free (a ++ b).
Proof. unfold wild_free. intros Ha Hb. induction a as [|c a IH]; [exact Hb|]. cbn in *. apply orb_false_iff in Ha as [-> Ha]. cbn. auto. Qed.
Lemma itoa_wild n : wild_free (itoa n).
Proof.
  unfold wild_free. destruct (existsb wild (list_ascii_of_string (itoa n))) eqn:E; [|reflexivity]. exfalso.
  apply existsb_exists in E as (c & Hc & Hw). apply (itoa_free n c); [|exact Hc]. unfold wild in Hw. cbn in Hw.
  rewrite !orb_true_iff, !Ascii.eqb_eq in Hw. destruct Hw as [->|[->|[->|[=]]]]; reflexivity.
Qed.
Lemma plain_wild s : plain_name s -> wild_free s.
Proof.
  intros (_ & _ & _ & H & _). unfold wild_free. destruct (existsb wild (list_ascii_of_string s)) eqn:E; [|reflexivity]. exfalso.
  apply existsb_exists in E as (c & Hc & Hw). rewrite forallb_forall in H. specialize (H c Hc). unfold wild in Hw. cbn in Hw.
  rewrite !orb_true_iff, !Ascii.eqb_eq in Hw. destruct Hw as [->|[->|[->|[=]]]]; discriminate H.
Qed.
Lemma key_wild k : plain_key k -> wild_free (key_str k).
Proof. destruct k; cbn; intros H; [apply itoa_wild|now apply plain_wild]. Qed.
Lemma kp_wild : forall ks, Forall plain_key ks -> wild_free (kp ks).
Proof.
  unfold kp. induction ks as [|k ks IH]; intros H; [reflexivity|]. inversion H as [|? ? Hk Hks]; subst. cbn [map].
  destruct ks as [|k' ks]; [now apply key_wild|]. cbn [map]. rewrite concat_cons. apply wild_app; [now apply key_wild|]. apply wild_app; [reflexivity|].
  now apply IH.
Qed.
Lemma key_ne k : plain_key k -> key_str k <> "".
Proof. destruct k as [n|s]; cbn; [intros _; apply itoa_nonempty|now intros (H & _)]. Qed.
Lemma kp_ne ks : Forall plain_key ks -> ks <> [] -> kp ks <> "".
Proof.
  intros H Hn. destruct ks as [|k ks]; [congruence|]. inversion H as [|? ? Hk Hks]; subst. apply key_ne in Hk. unfold kp. cbn [map].
  destruct ks as [|k' ks]; [exact Hk|]. cbn [map]. rewrite concat_cons. destruct (key_str k); [congruence|discriminate].
Qed.
Lemma set_put rank ks doc v : Forall plain_key ks -> ks <> [] -> sj_set (kp (renumber rank [] ks)) doc v = sj_put (moved rank ks) doc v.
Proof.
  intros Hk Hn. assert (Hr : Forall plain_key (renumber rank [] ks)) by now apply renumber_plain.
  assert (Hrn : renumber rank [] ks <> []) by (intros E; now apply renumber_nil in E).
  unfold sj_set. destruct (String.eqb_spec (kp (renumber rank [] ks)) "") as [E|_]; [now apply kp_ne in E|].
  rewrite (kp_wild _ Hr), kp_split by assumption. reflexivity.
Qed.
Lemma cut_paths_ops' src f rank : forall rs d, Forall (Forall plain_key) rs -> ~ In [] rs ->
  cut_paths (cf_pred f) src d (map (fun ks => (kp (renumber rank [] ks), kp ks)) rs) = puts (ops_of src f rank rs) d.
Proof.
  unfold ops_of. induction rs as [|ks rs IH]; intros d Hk Hn; [reflexivity|]. inversion Hk as [|? ? Hks Hrs]; subst. cbn [map cut_paths]. unfold skipped.
  cbn [fst snd filter]. assert (Hne : ks <> []) by (intros ->; apply Hn; now left). assert (Hn' : ~ In [] rs) by (intros Hi; apply Hn; now right).
  destruct (PexModel.contains _ _); cbn [negb]; [now apply IH|]. cbn [map puts].
  rewrite set_put by assumption. unfold told. rewrite value_look by assumption. destruct (sj_put _ _ _); cbn [bind]; [now apply IH|reflexivity|reflexivity].
Qed.
(** All operations of the fields, for given ranks. *)
Fixpoint all_ops (jp : list string -> json -> res (list (list pkey))) (src : json) (rank : nat -> list pkey -> nat -> nat) (fs : list cfield) : list (list string * json) :=
  match fs with
  | [] => []
  | f :: rest => (ops_of src f (rank O) (match jp (cf_paths f) src with Ok rs => rs | _ => [] end) ++ all_ops jp src (fun i => rank (Datatypes.S i)) rest)%list
  end.
Lemma cut_all_ops jp src : forall fs d, all_plain jp src fs -> (forall f, In f fs -> exists rs, jp (cf_paths f) src = Ok rs /\ ~ In [] rs) ->
  exists rank, ranks_ok jp src fs rank /\ cut_fields jp src d fs = puts (all_ops jp src rank fs) d.
Proof.
  induction fs as [|f fs IH]; intros d Hpl Hj; [exists (fun _ _ _ => 0%nat); split; [intros [|i] g rs Hn; discriminate|reflexivity]|].
  destruct (Hj f (or_introl eq_refl)) as (rs & Ej & Hn).
  assert (Hrs : Forall plain_path rs) by (apply Forall_forall; intros ks Hks; apply (Hpl 0%nat f); split; [reflexivity|exists rs; auto]).
  destruct (compact_paths_spec rs) as (rk & Hc & Ec). { eapply Forall_impl; [|exact Hrs]. apply plain_path_good. }
  assert (Hpl' : all_plain jp src fs) by (intros i g ks [Hn' Hk]; apply (Hpl (Datatypes.S i) g); split; assumption).
  assert (Hp' : Forall (Forall plain_key) rs) by (eapply Forall_impl; [|exact Hrs]; intros ? [? _]; assumption).
  assert (G : forall d, exists rank, ranks_ok jp src fs rank /\ cut_fields jp src d fs = puts (all_ops jp src rank fs) d).
  { intros d0. apply IH; [assumption|]. intros g Hg. apply Hj. now right. }
  cbn [cut_fields]. unfold field_paths. rewrite Ej. cbn [bind]. rewrite Ec, cut_paths_ops' by assumption.
  destruct (puts (ops_of src f rk rs) d) as [d1| |] eqn:E1.
  1: destruct (G d1) as (rank & Hr & E2). 2,3: destruct (G d) as (rank & Hr & E2).
  all: exists (fun i => match i with O => rk | Datatypes.S i' => rank i' end);
    (split; [intros [|i] g rs' Hn' Hj'; [injection Hn' as <-; rewrite Ej in Hj'; injection Hj' as <-; assumption|now apply Hr with (f := g)]|]);
    cbn [all_ops bind]; rewrite Ej, puts_app, E1; cbn [bind]; first [exact E2|reflexivity].
Qed.
Lemma in_all_ops jp src : forall fs rank p v, In (p, v) (all_ops jp src rank fs) ->
  exists i f ks, request jp src fs i f ks /\ p = moved (rank i) ks /\ v = told src f ks.
Proof.
  induction fs as [|f fs IH]; intros rank p v H; [destruct H|]. cbn [all_ops] in H. apply in_app_or in H as [H|H].
  - unfold ops_of in H. apply in_map_iff in H as (ks & [= <- <-] & H). apply filter_In in H as [H _].
    destruct (jp (cf_paths f) src) as [rs| |] eqn:Ej; try destruct H. exists 0%nat, f, ks. split; [split; [reflexivity|exists rs; auto]|auto].
  - apply IH in H as (i & g & ks & [H1 H2] & H3). exists (Datatypes.S i), g, ks. split; [split; assumption|assumption].
Qed.
Lemma cut_succeeds jp src fs t : all_plain jp src fs -> separate_arrays jp src fs -> separate_values jp src fs ->
  (forall f, In f fs -> exists rs, jp (cf_paths f) src = Ok rs /\ ~ In [] rs) ->
  (forall i f ks, request jp src fs i f ks -> located src ks) ->
  (forall i f ks rank, request jp src fs i f ks -> room t (moved rank ks)) -> exists d, cut_fields jp src t fs = Ok d.
Proof.
  intros Hpl Ha Hv Hj Hl Hroom. destruct (cut_all_ops jp src fs t Hpl Hj) as (rank & Hr & ->). apply puts_ok.
  - apply Forall_forall. intros [p v] Hi. apply in_all_ops in Hi as (i & f & ks & Hq & -> & _). apply moved_ok. now apply (Hpl i f).
  - intros p v Hi. apply in_all_ops in Hi as (i & f & ks & Hq & -> & _). eapply Hroom; exact Hq.
  - intros p v q w Hi Hi'. apply in_all_ops in Hi as (i & f & ks & Hq & -> & _). apply in_all_ops in Hi' as (j & g & ks' & Hq' & -> & _).
    destruct (Hv i j f g ks ks' Hq Hq') as [[A1 A2]|[<- _]].
    + right. destruct (prefix_or_part ks ks') as [(r & E)|[(r & E)|(c & a & b & r & s & E1 & E2 & Hne)]]; [now apply A1 in E|now apply A2 in E|].
      assert (P1 := Hpl i f ks Hq). assert (P2 := Hpl j g ks' Hq'). assert (L1 := Hl i f ks Hq). assert (L2 := Hl j g ks' Hq').
      subst ks ks'. pose proof (located_kind c src a b r s L1 L2) as Hkind.
      destruct P1 as [P1 _], P2 as [P2 _]. rewrite Forall_app in P1, P2. destruct P1 as [Pc P1], P2 as [_ P2].
      inversion P1 as [|? ? Pa _]; subst. inversion P2 as [|? ? Pb _]; subst.
      unfold moved, steps. rewrite !renumber_app, !map_app. cbn [app].
      assert (Hc : renumber (rank i) [] c = renumber (rank j) [] c /\ (forall v w, a = KIdx v -> b = KIdx w -> i = j)).
      { destruct (Nat.eq_dec i j) as [->|Hij]; [auto|]. split.
        - apply renumber_names. intros x v' r' ->. rewrite <- !app_assoc in Hq, Hq'. exact (Ha i j f g x v' v' _ _ Hij Hq Hq').
        - intros v' w' -> ->. exfalso. exact (Ha i j f g c v' w' r s Hij Hq Hq'). }
      destruct Hc as [Hc Hij]. rewrite Hc.
      assert (K : forall rk rk' c' x y rx ry, same_kind x y -> plain_key x -> plain_key y ->
        (match x, y with KIdx v', KIdx w' => rk c' v' <> rk' c' w' | _, _ => x <> y end) ->
        parts (map key_str (renumber (rank j) [] c) ++ map key_str (renumber rk c' (x :: rx))) (map key_str (renumber (rank j) [] c) ++ map key_str (renumber rk' c' (y :: ry)))).
      { intros rk rk' c' x y rx ry Hk Px Py Hxy. exists (map key_str (renumber (rank j) [] c)). destruct x as [v'|sx], y as [w'|sy]; try destruct Hk; cbn [renumber map].
        - do 4 eexists. split; [reflexivity|]. split; [reflexivity|]. cbn [key_str]. split; [intros E; apply itoa_inj in E; now apply Hxy|].
          rewrite !index_itoa. split; discriminate.
        - do 4 eexists. split; [reflexivity|]. split; [reflexivity|]. cbn [key_str]. split; [congruence|]. rewrite !index_of_name by (now apply plain_inert). tauto. }
      apply K; auto. destruct a as [va|sa], b as [vb|sb]; try destruct Hkind; [|assumption].
      specialize (Hij va vb eq_refl eq_refl). subst j. intros E. apply Hne. f_equal.
      destruct Hq as (N1 & rs & J1 & I1), Hq' as (N2 & rs' & J2 & I2). assert (g = f) by congruence. subst g. rewrite J1 in J2. injection J2 as <-.
      destruct (Hr i f rs N1 J1) as [Hinj _]. apply (Hinj c); [exists r; assumption|exists s; assumption|exact E].
    + left. destruct (Nat.eq_dec i j) as [->|Hne]; [reflexivity|].
      unfold moved. f_equal. apply renumber_names. intros a v' r ->. now apply (Ha j i g f a v' v' r r (not_eq_sym Hne)).
Qed.
