(** The frame of a BBS+ derivation (presexch/definition.go:1366-1431): exactly what it contains, for every order of map iteration. *)
From Verif Require Import GoBase StrLemmas PexSpec PexModel PexCompact PexLimit StatusModel PxSpec PxModel PxProofs PxProofs2.

(** ** Puts through names only *)
Lemma build_apart : forall p v q, Forall inert p -> apart q p -> look (sj_build p v) q = None.
Proof.
  induction p as [|k p IH]; intros v q H Ha; [exfalso; now apply (proj1 Ha q)|]. inversion H as [|? ? Hk Hp]; subst.
  destruct Hk as (K1 & K2 & K3). cbn [sj_build]. rewrite K3. destruct (String.eqb_spec k "-1"); [contradiction|].
  destruct q as [|k' q]; [exfalso; now apply (proj2 Ha (k :: p))|]. cbn [look mget]. destruct (String.eqb_spec k' k) as [->|]; [|reflexivity].
  apply IH; [assumption|]. now apply apart_cons in Ha.
Qed.
Lemma put_keep_inv : forall p d v d' q x, Forall inert p -> sj_put p d v = Ok d' -> apart q p -> look d' q = Some x -> look d q = Some x.
Proof.
  induction p as [|k p IH]; intros d v d' q x H Hp Ha Hl; [exfalso; now apply (proj1 Ha q)|].
  pose proof (build_apart (k :: p) v q H Ha) as Hb. cbn [sj_put] in Hp.
  inversion H as [|? ? Hk Hr]; subst. destruct q as [|k' q]; [exfalso; now apply (proj2 Ha (k :: p))|].
  destruct d as [| | | |l|m]; try (injection Hp as <-; cbn [sj_build] in Hb; congruence).
  - rewrite gj_index_name in Hp by assumption. destruct Hk as (K1 & K2 & K3). rewrite <- !String.eqb_neq in *. rewrite K1, K2 in Hp. discriminate.
  - destruct (mget m k) as [y|] eqn:Em.
    + apply bind_ok in Hp as (z & Hz & Hp). injection Hp as <-. cbn [look] in *. rewrite mget_mset in Hl.
      destruct (String.eqb_spec k' k) as [->|]; [|exact Hl]. rewrite Em. eapply IH; eauto. now apply apart_cons in Ha.
    + injection Hp as <-. cbn [look mget] in *. destruct (String.eqb_spec k' k) as [->|]; [|exact Hl].
      apply apart_cons in Ha. rewrite build_apart in Hl by assumption. discriminate.
Qed.
Lemma inert_ok p : Forall inert p -> Forall step_ok p.
Proof. intros H. eapply Forall_impl; [|exact H]. intros s Hs. now left. Qed.
Lemma prefix_or_part_s : forall p q : list string, (exists r, p = (q ++ r)%list) \/ (exists r, q = (p ++ r)%list) \/
  exists c a b r s, p = (c ++ a :: r)%list /\ q = (c ++ b :: s)%list /\ a <> b.
Proof.
  induction p as [|a p IH]; intros q; [right; left; now exists q|]. destruct q as [|b q]; [left; eexists; reflexivity|].
  destruct (string_dec a b) as [<-|Hn].
  - destruct (IH q) as [(r & ->)|[(r & ->)|(c & x & y & r & s & -> & -> & Hn)]].
    + left. now exists r.
    + right; left. now exists r.
    + right; right. exists (a :: c), x, y, r, s. auto.
  - right; right. exists [], a, b, p, q. auto.
Qed.
Lemma part_apart c (a b : string) r s : a <> b -> apart (c ++ a :: r)%list (c ++ b :: s)%list.
Proof.
  intros Hn. split; intros t E; rewrite <- app_assoc in E; apply app_inv_head in E; cbn in E; congruence.
Qed.
Lemma apart_or p q : apart p q \/ (exists r, p = (q ++ r)%list) \/ (exists r : list string, q = (p ++ r)%list).
Proof.
  destruct (prefix_or_part_s p q) as [H|[H|(c & a & b & r & s & -> & -> & Hn)]]; [auto|auto|]. left. now apply part_apart.
Qed.
Lemma apart_sym {A} (p q : list A) : apart p q -> apart q p.
Proof. intros [H1 H2]. now split. Qed.

(** The leaves after one put. *)
Lemma put_char p d v d' : Forall inert p -> sj_put p d v = Ok d' -> forall q x, leaf x ->
  (look d' q = Some x <-> (exists r, q = (p ++ r)%list /\ look v r = Some x) \/ (apart q p /\ look d q = Some x)).
Proof.
  intros H Hp q x Hx. pose proof (put_get p d v d' (inert_ok p H) Hp) as Hg. split.
  - intros Hl. destruct (apart_or q p) as [Ha|[(r & ->)|(r & ->)]].
    + right. split; [assumption|]. eapply put_keep_inv; eassumption.
    + left. exists r. split; [reflexivity|]. now rewrite look_app, Hg in Hl.
    + rewrite look_app, Hl in Hg. destruct (leaf_look x r v Hx Hg) as [-> ->]. left. exists []. rewrite !app_nil_r. split; reflexivity.
  - intros [(r & -> & Hr)|[Ha Hl]]; [now rewrite look_app, Hg|]. exact (put_keep p d v d' q x (inert_ok p H) Hp Hl Ha).
Qed.
Lemma puts_char : forall ops d d', Forall (fun o => Forall inert (fst o)) ops -> puts ops d = Ok d' ->
  (forall p v q w, In (p, v) ops -> In (q, w) ops -> (p = q /\ v = w) \/ apart p q) -> forall q x, leaf x ->
  (look d' q = Some x <-> (exists p v r, In (p, v) ops /\ q = (p ++ r)%list /\ look v r = Some x)
                          \/ (look d q = Some x /\ forall p v, In (p, v) ops -> apart p q)).
Proof.
  induction ops as [|[p v] ops IH]; intros d d' Ho Hp Ha q x Hx; cbn [puts] in Hp.
  - injection Hp as <-. split; [intros Hl; right; split; [exact Hl|intros ? ? []]|intros [(? & ? & ? & [] & _)|[Hl _]]; exact Hl].
  - apply bind_ok in Hp as (d1 & H1 & Hp). inversion Ho as [|? ? Hpi Hops]; subst. cbn [fst] in Hpi.
    assert (Ha' : forall p v q w, In (p, v) ops -> In (q, w) ops -> (p = q /\ v = w) \/ apart p q) by (intros; eapply Ha; right; eassumption).
    rewrite (IH d1 d' Hops Hp Ha' q x Hx), (put_char p d v d1 Hpi H1 q x Hx). split.
    + intros [(p' & v' & r & Hi & -> & Hr)|[[(r & -> & Hr)|[Hq Hl]] Hall]].
      * left. exists p', v', r. split; [now right|auto].
      * left. exists p, v, r. split; [now left|auto].
      * right. split; [assumption|]. intros p' v' [[= <- <-]|Hi]; [now apply apart_sym|eauto].
    + intros [(p' & v' & r & [[= <- <-]|Hi] & -> & Hr)|[Hl Hall]].
      * destruct (List.existsb (fun o => if list_eq_dec string_dec (fst o) p then true else false) ops) eqn:Ex.
        -- apply existsb_exists in Ex as ([p' v'] & Hi & Hd). cbn [fst] in Hd. destruct (list_eq_dec string_dec p' p) as [->|]; [|discriminate].
           destruct (Ha p v p v' (or_introl eq_refl) (or_intror Hi)) as [[_ <-]|[Hf _]]; [|now specialize (Hf []); rewrite app_nil_r in Hf].
           left. exists p, v, r. auto.
        -- right. split; [left; exists r; auto|]. intros p' v' Hi. destruct (Ha p' v' p v (or_intror Hi) (or_introl eq_refl)) as [[-> _]|Hpp].
           ++ exfalso. assert (T : existsb (fun o : list string * json => if list_eq_dec string_dec (fst o) p then true else false) ops = true); [|congruence].
              apply existsb_exists. exists (p, v'). split; [assumption|]. cbn [fst]. now destruct (list_eq_dec string_dec p p).
           ++ destruct Hpp as [A B]. split.
              ** intros t E. apply (A (r ++ t)%list). now rewrite app_assoc.
              ** intros t E. destruct (prefix_or_part_s p p') as [(u & E')|[(u & E')|(c & a & b & u & s & E1 & E2 & Hn)]].
                 --- now apply (B u).
                 --- now apply (A u).
                 --- subst p p'. rewrite <- !app_assoc in E. apply app_inv_head in E. cbn in E. congruence.
      * left. exists p', v', r. auto.
      * right. split; [right; split; [apply apart_sym; eapply Hall; now left|assumption]|]. intros p' v' Hi. eapply Hall. right. exact Hi.
Qed.

(** ** The paths as strings *)
Definition good (s : string) : Prop := free_of "." s /\ inert s /\ wild_free s.
Definition join (l : list string) : string := String.concat "." l.
Lemma plain_all s : plain_name s -> good s.
Proof. intros H. split; [now apply plain_free|]. split; [now apply plain_inert|now apply plain_wild]. Qed.
Lemma marker_good s : In s marker -> good s.
Proof.
  intros [<-|[<-|[<-|[]]]]; (split; [intros Hf; cbn in Hf; repeat (destruct Hf as [Hf|Hf]; [discriminate Hf|]); exact Hf|split; [split; [discriminate|split; [discriminate|reflexivity]]|reflexivity]]).
Qed.
Lemma join_wild : forall l, Forall good l -> wild_free (join l).
Proof.
  unfold join. induction l as [|s l IH]; intros H; [reflexivity|]. inversion H as [|? ? (_ & _ & Hs) Hl]; subst.
  destruct l as [|s' l]; [exact Hs|]. rewrite concat_cons. apply wild_app; [exact Hs|]. apply wild_app; [reflexivity|]. now apply IH.
Qed.
Lemma join_ne l : Forall good l -> l <> [] -> join l <> "".
Proof.
  intros H Hn. destruct l as [|s l]; [congruence|]. inversion H as [|? ? (_ & (Hs & _) & _) _]; subst. unfold join.
  destruct l as [|s' l]; [exact Hs|]. rewrite concat_cons. destruct s; [congruence|discriminate].
Qed.
Lemma join_split l : Forall good l -> l <> [] -> split_on "." (join l) = l.
Proof. intros H Hn. apply split_on_concat; [assumption|]. eapply Forall_impl; [|exact H]. now intros s (A & _). Qed.
Lemma set_join l doc v : Forall good l -> l <> [] -> sj_set (join l) doc v = sj_put l doc v.
Proof.
  intros H Hn. unfold sj_set. destruct (String.eqb_spec (join l) ""); [now apply join_ne in e|]. rewrite join_split by assumption.
  pose proof (join_wild l H) as Hw. unfold wild_free in Hw. now rewrite Hw.
Qed.
Lemma good_ok l : Forall good l -> Forall inert l.
Proof. intros H. eapply Forall_impl; [|exact H]. now intros s (_ & A & _). Qed.
Lemma value_join src l : Forall good l -> l <> [] -> gj_value src (join l) = match look src l with Some v => v | None => JNull end.
Proof. intros H Hn. unfold gj_value. rewrite join_split by assumption. rewrite gj_look; [reflexivity|]. now apply inert_ok, good_ok. Qed.
Lemma join_snoc l s : l <> [] -> join l ++ "." ++ s = join (l ++ [s])%list.
Proof.
  unfold join. induction l as [|a l IH]; intros Hn; [congruence|]. destruct l as [|b l]; [reflexivity|].
  specialize (IH ltac:(discriminate)). cbn [app] in *. rewrite !concat_cons, !append_assoc_s. now rewrite IH.
Qed.
Lemma join_inj a b : Forall good a -> Forall good b -> a <> [] -> b <> [] -> join a = join b -> a = b.
Proof. intros Ha Hb Na Nb E. rewrite <- (join_split a), <- (join_split b), E by assumption. reflexivity. Qed.

(** splitLast *)
Lemma split_last_free : forall s, free_of "." s -> split_last_dot s = None.
Proof.
  induction s as [|c s IH]; intros H; [reflexivity|]. cbn [split_last_dot]. rewrite IH; [|intros Hc; apply H; now right].
  destruct (Ascii.eqb_spec c "."); [exfalso; apply H; left; auto|reflexivity].
Qed.
Lemma split_last_snoc p s : free_of "." s -> split_last_dot (p ++ "." ++ s) = Some (p, s).
Proof.
  intros H. induction p as [|c p IH].
  - cbn [append split_last_dot]. rewrite split_last_free by assumption. reflexivity.
  - cbn [append split_last_dot]. cbn [append] in IH. now rewrite IH.
Qed.
Lemma split_last_join l s : l <> [] -> free_of "." s -> fst (split_last (join (l ++ [s])%list)) = join l.
Proof. intros Hn H. rewrite <- join_snoc by assumption. unfold split_last. now rewrite split_last_snoc. Qed.

(** proper prefixes *)
Lemma prefixes_join : forall l acc, Forall good l -> forall s, In s (prefixes_from acc l) <->
  exists a b, l = (a ++ b)%list /\ a <> [] /\ b <> [] /\ s = if String.eqb acc "" then join a else acc ++ "." ++ join a.
Proof.
  induction l as [|x l IH]; intros acc H s; [split; [intros []|intros (a & b & E & Ha & _); destruct a; [congruence|discriminate]]|].
  inversion H as [|? ? Hx Hl]; subst. cbn [prefixes_from]. destruct l as [|y l].
  - split; [intros []|]. intros (a & b & E & Ha & Hb & _). destruct a as [|a0 [|a1 a]]; [congruence| |discriminate]. injection E as _ <-. congruence.
  - remember (y :: l) as l' eqn:El. set (acc' := if String.eqb acc "" then x else acc ++ "." ++ x).
    assert (Hne : String.eqb acc' "" = false).
    { apply String.eqb_neq. unfold acc'. destruct (String.eqb_spec acc ""); [apply Hx|]. destruct acc; [congruence|discriminate]. }
    cbn [In]. rewrite (IH acc' Hl s), Hne. split.
    + intros [<-|(a & b & E & Ha & Hb & ->)].
      * exists [x], l'. split; [reflexivity|]. split; [discriminate|]. split; [subst; discriminate|]. unfold acc', join. cbn [String.concat]. now destruct (String.eqb acc "").
      * exists (x :: a), b. rewrite E. split; [reflexivity|]. split; [discriminate|]. split; [assumption|].
        assert (J : join (x :: a) = x ++ "." ++ join a) by (unfold join; destruct a; [congruence|apply concat_cons]).
        rewrite J. unfold acc'. destruct (String.eqb acc ""); [reflexivity|]. now rewrite !append_assoc_s.
    + intros (a & b & E & Ha & Hb & ->). destruct a as [|a0 a]; [congruence|]. injection E as <- E. destruct a as [|a1 a].
      * left. unfold acc', join. cbn [String.concat]. now destruct (String.eqb acc "").
      * right. exists (a1 :: a), b. split; [exact E|]. split; [discriminate|]. split; [assumption|].
        assert (J : join (x :: a1 :: a) = x ++ "." ++ join (a1 :: a)) by (unfold join; apply concat_cons).
        rewrite J. unfold acc'. destruct (String.eqb acc ""); [reflexivity|]. now rewrite !append_assoc_s.
Qed.

(** ** enhanceRevealField as puts *)
Definition copy_ops (src : json) (l : list string) (cf : string) : list (list string * json) :=
  match look src (l ++ [cf])%list with Some JNull | None => [] | Some v => [((l ++ [cf])%list, v)] end.
Definition special_ops (src : json) (l : list string) : list (list string * json) :=
  (((l ++ ["@explicit"])%list, JBool true) :: copy_ops src l "type" ++ copy_ops src l "@context")%list.
Lemma good_snoc l s : Forall good l -> In s marker -> Forall good (l ++ [s])%list.
Proof. intros H Hs. apply Forall_app. split; [assumption|]. constructor; [now apply marker_good|constructor]. Qed.
Lemma snoc_ne {A} (l : list A) x : (l ++ [x])%list <> [].
Proof. now destruct l. Qed.
Lemma copy_puts l src doc cf : Forall good l -> l <> [] -> In cf marker -> copy_special (join l) src doc cf = puts (copy_ops src l cf) doc.
Proof.
  intros H Hn Hc. unfold copy_special, copy_ops. rewrite join_snoc by assumption. rewrite value_join by auto using good_snoc, snoc_ne.
  destruct (look src (l ++ [cf])%list) as [v|]; [|reflexivity]. destruct v; try reflexivity;
    (rewrite set_join by auto using good_snoc, snoc_ne; cbn [puts]; destruct (sj_put _ _ _); reflexivity).
Qed.
Lemma enhance_field_puts l src doc : Forall good l -> l <> [] -> enhance_field (join l) src doc = puts (special_ops src l) doc.
Proof.
  intros H Hn. unfold enhance_field, special_ops. change (join l ++ ".@explicit") with (join l ++ "." ++ "@explicit").
  rewrite join_snoc by assumption. rewrite set_join; [|apply good_snoc; [assumption|now left]|apply snoc_ne]. cbn [puts].
  destruct (sj_put _ _ _) as [d| |]; cbn [bind]; try reflexivity.
  rewrite copy_puts; [|assumption|assumption|right; now left]. rewrite puts_app. destruct (puts (copy_ops src l "type") d) as [d'| |]; cbn [bind]; try reflexivity.
  apply copy_puts; [assumption|assumption|right; right; now left].
Qed.
Definition dotted (s : string) : Prop := exists l, s = join l /\ Forall good l /\ l <> [].
Lemma enhance_fields_puts src : forall ps doc, Forall dotted ps ->
  enhance_fields ps src doc = puts (List.concat (map (fun p => special_ops src (split_on "." p)) ps)) doc.
Proof.
  induction ps as [|p ps IH]; intros doc H; [reflexivity|]. inversion H as [|? ? (l & -> & Hl & Hn) Hps]; subst.
  cbn [enhance_fields map List.concat]. rewrite join_split by assumption. rewrite puts_app, enhance_field_puts by assumption.
  destruct (puts _ _) as [d| |]; cbn [bind]; [now apply IH|reflexivity|reflexivity].
Qed.

(** ** The sets of paths *)
Lemma add_once_In s l x : In x (add_once s l) <-> x = s \/ In x l.
Proof.
  unfold add_once. destruct (str_in s l) eqn:E.
  - apply str_in_In in E. split; [auto|intros [->|]; auto].
  - rewrite in_app_iff. cbn. intuition.
Qed.
Lemma fold_add {A} (sel : A -> bool) (g : A -> string) x : forall l acc,
  In x (fold_left (fun acc p => if sel p then acc else add_once (g p) acc) l acc) <-> In x acc \/ exists p, In p l /\ sel p = false /\ x = g p.
Proof.
  induction l as [|a l IH]; intros acc; cbn [fold_left]; [split; [auto|intros [|(? & [] & _)]; auto]|]. rewrite IH. destruct (sel a) eqn:E.
  - split; [intros [|(p & Hp & H)]; [auto|right; exists p; cbn; auto]|]. intros [|(p & [<-|Hp] & Hs & Hx)]; [auto|congruence|right; exists p; auto].
  - rewrite add_once_In. split.
    + intros [[->|]|(p & Hp & H)]; [right; exists a; cbn; auto|auto|right; exists p; cbn; tauto].
    + intros [|(p & [<-|Hp] & Hs & Hx)]; [auto|auto|right; exists p; auto].
Qed.
Lemma explicit_In jp src x : forall fs acc,
  In x (fold_left (fun acc f => match field_paths jp src f with
      | Ok ps => fold_left (fun acc (p : string * string) => if skipped p then acc else add_once (fst (split_last (fst p))) acc) ps acc
      | _ => acc end) fs acc) <->
  In x acc \/ exists f ps p, In f fs /\ field_paths jp src f = Ok ps /\ In p ps /\ skipped p = false /\ x = fst (split_last (fst p)).
Proof.
  induction fs as [|f fs IH]; intros acc; cbn [fold_left]; [split; [auto|intros [|(? & ? & ? & [] & _)]; auto]|]. rewrite IH.
  destruct (field_paths jp src f) as [ps| |] eqn:Ef.
  - rewrite fold_add. split.
    + intros [[|(p & Hp & Hs & Hx)]|(g & ps' & p & Hg & H)]; [auto| |].
      * right. exists f, ps, p. cbn. auto.
      * right. exists g, ps', p. cbn. tauto.
    + intros [|(g & ps' & p & [<-|Hg] & Hf & Hp & Hs & Hx)]; [auto| |].
      * rewrite Ef in Hf. injection Hf as <-. left; right. exists p. auto.
      * right. exists g, ps', p. auto.
  - split; [intros [|(g & ps' & p & Hg & H)]; [auto|right; exists g, ps', p; cbn; tauto]|].
    intros [|(g & ps' & p & [<-|Hg] & Hf & H)]; [auto|congruence|right; exists g, ps', p; auto].
  - split; [intros [|(g & ps' & p & Hg & H)]; [auto|right; exists g, ps', p; cbn; tauto]|].
    intros [|(g & ps' & p & [<-|Hg] & Hf & H)]; [auto|congruence|right; exists g, ps', p; auto].
Qed.
Lemma interm_In ex x : forall l acc,
  In x (fold_left (fun acc p => fold_left (fun acc q => if str_in q ex then acc else add_once q acc) (prefixes_from "" (split_on "." p)) acc) l acc) <->
  In x acc \/ exists p, In p l /\ In x (prefixes_from "" (split_on "." p)) /\ ~ In x ex.
Proof.
  induction l as [|a l IH]; intros acc; cbn [fold_left]; [split; [auto|intros [|(? & [] & _)]; auto]|]. rewrite IH.
  rewrite (fold_add (fun q => str_in q ex) (fun q => q)). split.
  - intros [[|(q & Hq & Hs & ->)]|(p & Hp & H)]; [auto| |].
    + right. exists a. split; [now left|]. split; [assumption|]. now apply str_in_nIn.
    + right. exists p. cbn. tauto.
  - intros [|(p & [<-|Hp] & Hx & He)]; [auto| |right; exists p; auto]. left; right. exists x. split; [assumption|]. split; [|reflexivity].
    now apply str_in_nIn.
Qed.

(** ** What is framed *)
Section Framed.
  Variable jp : list string -> json -> res (list (list pkey)).
  Variable src : json.
  Variable fs : list cfield.
  Hypothesis Hm : forall i f ks, request jp src fs i f ks -> member_path ks.
  Hypothesis Hl : forall i f ks, request jp src fs i f ks -> located src ks.
  Hypothesis Hv : separate_values jp src fs.

  Lemma steps_names l : steps (map KName l) = l.
  Proof. unfold steps. rewrite map_map. cbn. apply map_id. Qed.
  Lemma moved_names rank l : moved rank (map KName l) = l.
  Proof.
    unfold moved. assert (H : forall pre, renumber rank pre (map KName l) = map KName l).
    { induction l as [|s l IH]; intros pre; [reflexivity|]. cbn. now rewrite IH. }
    rewrite H. apply steps_names.
  Qed.
  Lemma member_moved rank ks : member_path ks -> moved rank ks = steps ks.
  Proof. intros (l & x & -> & _). now rewrite moved_names, steps_names. Qed.
  Lemma member_good ks : member_path ks -> Forall good (steps ks).
  Proof. intros (l & x & -> & _ & H & _). rewrite steps_names. eapply Forall_impl; [|exact H]. apply plain_all. Qed.
  Lemma member_plain ks : member_path ks -> plain_path ks.
  Proof.
    intros (l & x & -> & _ & H & _). split.
    - rewrite Forall_map. exact H.
    - assert (G : forall b l, no_nested_arrays b (map KName l)) by (intros b l0; revert b; induction l0; cbn; auto). apply G.
  Qed.
  Lemma snoc_prefix {A} (l a b : list A) x : (l ++ [x] = a ++ b)%list -> b <> [] -> exists r, l = (a ++ r)%list /\ b = (r ++ [x])%list.
  Proof.
    intros E Hb. destruct (exists_last Hb) as (r & y & ->). rewrite app_assoc in E. apply app_inj_tail in E as [E ->]. exists r. auto.
  Qed.
  Lemma ancestor_clean ks a b : member_path ks -> steps ks = (a ++ b)%list -> b <> [] -> Forall good a /\ forall s, In s marker -> ~ In s a.
  Proof.
    intros Hks E Hb. pose proof (member_good ks Hks) as Hg. rewrite E in Hg. apply Forall_app in Hg as [Hg _]. split; [assumption|].
    destruct Hks as (l & x & -> & _ & _ & Hc). rewrite steps_names in E. destruct (snoc_prefix l a b x E Hb) as (r & -> & _).
    rewrite Forall_app in Hc. destruct Hc as [Hc _]. rewrite Forall_forall in Hc. intros s Hs Hi. now apply (Hc s).
  Qed.
  Lemma located_look ks : forall j, located j ks -> Forall plain_key ks -> exists v, look j (steps ks) = Some v.
  Proof.
    induction ks as [|[n|s] ks IH]; intros j H Hp; cbn [located] in H; [eexists; reflexivity| |]; inversion Hp; subst.
    - destruct H as (l & x & -> & Hn & H). cbn [steps map key_str look]. rewrite index_itoa, Hn. now apply IH.
    - destruct H as (m & x & -> & Hn & H). cbn [steps map key_str look]. rewrite Hn. now apply IH.
  Qed.

  Definition anc (a : list string) : Prop :=
    exists i f ks b, request jp src fs i f ks /\ ~ schema_path (steps ks) /\ steps ks = (a ++ b)%list /\ a <> [] /\ b <> [].
  Lemma anc_clean a : anc a -> Forall good a /\ forall s, In s marker -> ~ In s a.
  Proof. intros (i & f & ks & b & Hq & _ & E & _ & Hb). eapply ancestor_clean; eauto. Qed.
  Lemma framed_cases p v : framed jp src fs p v <->
    (p = ["@explicit"] /\ v = JBool true)
    \/ (exists i f ks, request jp src fs i f ks /\ ~ schema_path (steps ks) /\ p = steps ks /\ look src p = Some v)
    \/ (exists a, anc a /\ In (p, v) (special_ops src a)).
  Proof.
    split.
    - intros [|i f ks v0 Hq Hs Hk|i f ks a b Hq Hs E Ha Hb|i f ks a b s v0 Hq Hs E Ha Hb Hi Hk Hn]; [auto| | |].
      + right; left. exists i, f, ks. auto.
      + right; right. exists a. split; [exists i, f, ks, b; auto|]. now left.
      + right; right. exists a. split; [exists i, f, ks, b; auto|]. right. apply in_or_app.
        destruct Hi as [<-|[<-|[]]]; [left|right]; unfold copy_ops; rewrite Hk; destruct v0; try congruence; now left.
    - intros [[-> ->]|[(i & f & ks & Hq & Hs & -> & Hk)|(a & (i & f & ks & b & Hq & Hs & E & Ha & Hb) & Hi)]].
      + constructor.
      + eapply fr_asked; eassumption.
      + destruct Hi as [[= <- <-]|Hi]; [eapply fr_mark; eassumption|]. apply in_app_or in Hi.
        assert (G : forall s, In (p, v) (copy_ops src a s) -> p = (a ++ [s])%list /\ look src (a ++ [s])%list = Some v /\ v <> JNull).
        { intros s Hc. unfold copy_ops in Hc. destruct (look src (a ++ [s])%list) as [w|] eqn:El; [|destruct Hc].
          destruct w; try destruct Hc as [Hc|[]]; try injection Hc as <- <-; try (split; [reflexivity|split; [reflexivity|discriminate]]). destruct Hc. }
        destruct Hi as [Hi|Hi]; apply G in Hi as (-> & Hk & Hn); (eapply fr_copy; eauto; cbn; auto).
  Qed.
  Lemma special_shape a p v : In (p, v) (special_ops src a) -> exists s, In s marker /\ p = (a ++ [s])%list /\
    (s = "@explicit" -> v = JBool true) /\ (s <> "@explicit" -> look src p = Some v).
  Proof.
    intros [[= <- <-]|Hi].
    - exists "@explicit". split; [now left|]. split; [reflexivity|]. split; [reflexivity|congruence].
    - apply in_app_or in Hi. assert (G : forall s, In (p, v) (copy_ops src a s) -> p = (a ++ [s])%list /\ look src p = Some v).
      { intros s Hc. unfold copy_ops in Hc. destruct (look src (a ++ [s])%list) as [w|] eqn:El; [|destruct Hc].
        destruct w; try destruct Hc as [Hc|[]]; try injection Hc as <- <-; try (split; [reflexivity|exact El]). destruct Hc. }
      destruct Hi as [Hi|Hi]; apply G in Hi as [-> Hk].
      + exists "type". split; [right; now left|]. split; [reflexivity|]. split; [discriminate|auto].
      + exists "@context". split; [right; right; now left|]. split; [reflexivity|]. split; [discriminate|auto].
  Qed.
  Lemma framed_good p v : framed jp src fs p v -> Forall good p /\ p <> [].
  Proof.
    intros H. apply framed_cases in H as [[-> ->]|[(i & f & ks & Hq & _ & -> & _)|(a & Ha & Hi)]].
    - split; [|discriminate]. constructor; [apply marker_good; now left|constructor].
    - split; [now apply member_good, (Hm i f)|]. destruct (Hm i f ks Hq) as (l & x & -> & _). rewrite steps_names. apply snoc_ne.
    - apply special_shape in Hi as (s & Hs & -> & _). split; [|apply snoc_ne]. apply good_snoc; [|assumption]. now apply anc_clean.
  Qed.
  Lemma framed_disjoint p v q w : framed jp src fs p v -> framed jp src fs q w -> (p = q /\ v = w) \/ apart p q.
  Proof.
    assert (W : forall p v q w, framed jp src fs p v -> framed jp src fs q w -> forall r, q = (p ++ r)%list -> r = [] /\ v = w).
    2:{ intros H1 H2. destruct (apart_or p q) as [Ha|[(r & E)|(r & E)]]; [now right| |].
        - destruct (W q w p v H2 H1 r E) as [-> ->]. rewrite app_nil_r in E. auto.
        - destruct (W p v q w H1 H2 r E) as [-> ->]. rewrite app_nil_r in E. auto. }
    clear p v q w. intros p v q w H1 H2 r E.
    (* no framed position continues after a marker *)
    assert (N : forall a s t, In s marker -> q = (a ++ s :: t)%list -> t = []).
    { intros a s t Hs Eq. destruct t as [|y t]; [reflexivity|]. exfalso. apply framed_cases in H2 as [[-> ->]|[(i & f & ks & Hq & _ & -> & _)|(a' & Ha & Hi)]].
      - destruct a as [|? [|]]; discriminate Eq.
      - assert (E2 : steps ks = ((a ++ [s]) ++ (y :: t))%list) by (now rewrite <- app_assoc).
        destruct (ancestor_clean ks (a ++ [s])%list (y :: t) (Hm i f ks Hq) E2) as [_ C]; [discriminate|]. apply (C s Hs). apply in_or_app. right. now left.
      - apply special_shape in Hi as (s' & _ & -> & _). destruct (anc_clean a' Ha) as [_ C].
        assert (E2 : (a' ++ [s'] = (a ++ [s]) ++ (y :: t))%list) by (now rewrite <- app_assoc).
        destruct (snoc_prefix a' (a ++ [s])%list (y :: t) s' E2) as (u & -> & _); [discriminate|]. apply (C s Hs). rewrite !in_app_iff. left; right. now left. }
    (* positions with markers are only framed with one value *)
    apply framed_cases in H1 as [[-> ->]|[(i & f & ks & Hq & Hns & -> & Hk)|(a & Ha & Hi)]].
    - assert (r = []) as -> by (apply (N [] "@explicit" r); [now left|exact E]). split; [reflexivity|]. cbn in E. subst q.
      apply framed_cases in H2 as [[_ ->]|[(i & f & ks & Hq & _ & E2 & _)|(a & Ha & Hi)]]; [reflexivity| |].
      + destruct (Hm i f ks Hq) as (l & x & -> & Hne & _). rewrite steps_names in E2. destruct l as [|? [|]]; [congruence|discriminate E2|discriminate E2].
      + apply special_shape in Hi as (s & _ & E2 & _). destruct Ha as (_ & _ & _ & _ & _ & _ & _ & Ha & _). destruct a as [|? [|]]; [congruence|discriminate E2|discriminate E2].
    - apply framed_cases in H2 as [[-> ->]|[(j & g & ks' & Hq' & _ & -> & Hk')|(a & Ha & Hi)]].
      + destruct (Hm i f ks Hq) as (l & x & -> & Hne & _). rewrite steps_names in E. destruct l as [|? [|]]; [congruence|discriminate E|discriminate E].
      + destruct (Hv i j f g ks ks' Hq Hq') as [[A1 A2]|[<- _]].
        * exfalso. pose proof (steps_prefix ks' ks r) as P. destruct P as (r' & ->); [| |exact E|now apply (A2 r')].
          -- destruct (member_plain ks' (Hm j g ks' Hq')) as [P _]. eapply Forall_impl; [|exact P]. apply plain_good.
          -- destruct (member_plain ks (Hm i f ks Hq)) as [P _]. eapply Forall_impl; [|exact P]. apply plain_good.
        * rewrite <- (app_nil_r (steps ks)) in E at 1. apply app_inv_head in E as <-. split; [reflexivity|congruence].
      + apply special_shape in Hi as (s & Hs & -> & Hv1 & Hv2). destruct r as [|y r].
        * rewrite app_nil_r in E. split; [reflexivity|]. destruct (string_dec s "@explicit") as [->|Hn].
          -- exfalso. destruct (Hm i f ks Hq) as (l & x & -> & _ & Hp & _). rewrite steps_names in E. apply app_inj_tail in E as [_ <-].
             apply Forall_app in Hp as [_ Hp]. inversion Hp as [|? ? (_ & _ & _ & _ & [D|D]) _]; discriminate D.
          -- specialize (Hv2 Hn). rewrite E in Hv2. congruence.
        * exfalso. destruct (snoc_prefix a (steps ks) (y :: r) s E) as (u & Eu & _); [discriminate|].
          destruct Ha as (j & g & ks' & b & Hq' & _ & E' & _ & Hb). subst a. rewrite <- app_assoc in E'.
          destruct (steps_prefix ks' ks (u ++ b)%list) as (r' & ->); [| |exact E'|].
          -- destruct (member_plain ks' (Hm j g ks' Hq')) as [P _]. eapply Forall_impl; [|exact P]. apply plain_good.
          -- destruct (member_plain ks (Hm i f ks Hq)) as [P _]. eapply Forall_impl; [|exact P]. apply plain_good.
          -- destruct (Hv i j f g ks (ks ++ r')%list Hq Hq') as [[_ A2]|[E3 _]]; [now apply (A2 r')|].
             rewrite <- (app_nil_r ks) in E3 at 1. apply app_inv_head in E3 as <-. rewrite app_nil_r in E'.
             rewrite <- (app_nil_r (steps ks)) in E' at 1. apply app_inv_head in E'. destruct u; [now apply Hb|discriminate].
    - apply special_shape in Hi as (s & Hs & -> & Hv1 & Hv2). assert (r = []) as ->.
      { apply (N a s r Hs). rewrite E, <- app_assoc. reflexivity. }
      split; [reflexivity|]. rewrite app_nil_r in E. subst q.
      apply framed_cases in H2 as [[E2 ->]|[(j & g & ks' & Hq' & _ & E2 & Hk')|(a' & Ha' & Hi')]].
      + destruct Ha as (_ & _ & _ & _ & _ & _ & _ & Ha & _). destruct a as [|? [|]]; [congruence|discriminate E2|discriminate E2].
      + destruct (string_dec s "@explicit") as [->|Hn].
        * exfalso. destruct (Hm j g ks' Hq') as (l & x & -> & _ & Hp & _). rewrite steps_names in E2. apply app_inj_tail in E2 as [_ <-].
          apply Forall_app in Hp as [_ Hp]. inversion Hp as [|? ? (_ & _ & _ & _ & [D|D]) _]; discriminate D.
        * specialize (Hv2 Hn). congruence.
      + apply special_shape in Hi' as (s' & Hs' & E2 & Hv1' & Hv2'). apply app_inj_tail in E2 as [<- <-].
        destruct (string_dec s "@explicit") as [->|Hn]; [now rewrite Hv1, Hv1'|]. specialize (Hv2 Hn). specialize (Hv2' Hn). congruence.
  Qed.
End Framed.

Lemma room_prefix : forall p d q, room d (p ++ q)%list -> room d p.
Proof.
  induction p as [|k p IH]; intros d q H; [exact I|]. cbn [app room] in *. destruct d as [| | | |l|m]; try exact I.
  - destruct (index_of k) as [n|]; [|exact H]. destruct (nth_error l n); [|exact I]. now apply IH in H.
  - destruct (mget m k); [|exact I]. now apply IH in H.
Qed.
Lemma room_sibling : forall p d x y q, room d (p ++ x :: q)%list -> inert x -> inert y -> room d (p ++ [y])%list.
Proof.
  induction p as [|k p IH]; intros d x y q H Hx Hy; cbn [app room] in *; destruct d as [| | | |l|m]; try exact I.
  - rewrite index_of_name in H by assumption. destruct H.
  - destruct (mget m y); exact I.
  - destruct (index_of k) as [n|]; [|exact H]. destruct (nth_error l n); [|exact I]. eapply IH; eassumption.
  - destruct (mget m k); [|exact I]. eapply IH; eassumption.
Qed.

Section FrameDoc.
  Variable jp : list string -> json -> res (list (list pkey)).
  Variable src : json.
  Variable fs : list cfield.
  Hypothesis Hm : forall i f ks, request jp src fs i f ks -> member_path ks.
  Hypothesis Hl : forall i f ks, request jp src fs i f ks -> located src ks.
  Hypothesis Hv : separate_values jp src fs.

  Lemma field_paths_member f rs i : nth_error fs i = Some f -> jp (cf_paths f) src = Ok rs ->
    field_paths jp src f = Ok (map (fun ks => (join (steps ks), join (steps ks))) rs).
  Proof.
    intros Hi Hj. unfold field_paths. rewrite Hj. cbn [bind].
    assert (Hr : forall ks, In ks rs -> member_path ks) by (intros ks Hk; apply (Hm i f); split; [assumption|exists rs; auto]).
    destruct (compact_paths_spec rs) as (rk & Hc & ->).
    { apply Forall_forall. intros ks Hk. apply plain_path_good, member_plain. auto. }
    f_equal. apply map_ext_in. intros ks Hk. change (kp (renumber rk [] ks)) with (join (moved rk ks)). rewrite member_moved by auto. reflexivity.
  Qed.
  Lemma skipped_schema ks : skipped (join (steps ks), join (steps ks)) = false <-> ~ schema_path (steps ks).
  Proof.
    unfold skipped. cbn [fst]. unfold schema_path. fold (join (steps ks)). rewrite <- contains_sub.
    destruct (PexModel.contains _ _); split; congruence.
  Qed.
  Lemma member_parent ks : member_path ks -> exists l x, steps ks = (l ++ [x])%list /\ l <> [] /\ fst (split_last (join (steps ks))) = join l.
  Proof.
    intros (l & x & -> & Hn & Hp & _). exists l, x. rewrite steps_names. split; [reflexivity|]. split; [assumption|].
    apply split_last_join; [assumption|]. apply Forall_app in Hp as [_ Hp]. inversion Hp; subst. now apply plain_free.
  Qed.
  Hypothesis Hj : forall f, In f fs -> exists rs, jp (cf_paths f) src = Ok rs.

  Lemma explicit_spec s : In s (explicit_paths jp src fs) <->
    exists i f ks l x, request jp src fs i f ks /\ ~ schema_path (steps ks) /\ steps ks = (l ++ [x])%list /\ l <> [] /\ s = join l.
  Proof.
    unfold explicit_paths. rewrite explicit_In. split.
    - intros [[]|(f & ps & p & Hf & Hps & Hp & Hs & ->)]. apply In_nth_error in Hf as (i & Hi). destruct (Hj f (nth_error_In _ _ Hi)) as (rs & Hrs).
      rewrite (field_paths_member f rs i Hi Hrs) in Hps. injection Hps as <-. apply in_map_iff in Hp as (ks & <- & Hk).
      assert (Hq : request jp src fs i f ks) by (split; [assumption|exists rs; auto]).
      apply skipped_schema in Hs. destruct (member_parent ks (Hm i f ks Hq)) as (l & x & E & Hn & Ep). exists i, f, ks, l, x. cbn [fst]. auto.
    - intros (i & f & ks & l & x & Hq & Hs & E & Hn & ->). right. destruct Hq as (Hi & rs & Hrs & Hk).
      exists f, (map (fun ks => (join (steps ks), join (steps ks))) rs), (join (steps ks), join (steps ks)).
      split; [eapply nth_error_In; eassumption|]. split; [eapply field_paths_member; eassumption|]. split; [apply in_map_iff; exists ks; auto|].
      split; [now apply skipped_schema|]. cbn [fst].
      assert (Hq : request jp src fs i f ks) by (split; [assumption|exists rs; auto]).
      destruct (member_parent ks (Hm i f ks Hq)) as (l' & x' & E' & _ & ->). rewrite E in E'. apply app_inj_tail in E' as [-> _]. reflexivity.
  Qed.
  Lemma all_anc s : In s (explicit_paths jp src fs) \/ In s (interm_paths (explicit_paths jp src fs)) <-> exists a, anc jp src fs a /\ s = join a.
  Proof.
    unfold interm_paths. rewrite interm_In. split.
    - intros [H|[[]|(p & Hp & Hpre & _)]].
      + apply explicit_spec in H as (i & f & ks & l & x & Hq & Hs & E & Hn & ->). exists l. split; [|reflexivity]. exists i, f, ks, [x].
        split; [assumption|]. split; [assumption|]. split; [assumption|]. split; [assumption|discriminate].
      + apply explicit_spec in Hp as (i & f & ks & l & x & Hq & Hs & E & Hn & ->).
        assert (Hg : Forall good l). { pose proof (member_good ks (Hm i f ks Hq)) as G. rewrite E in G. now apply Forall_app in G as [G _]. }
        rewrite join_split in Hpre by assumption. apply prefixes_join in Hpre as (a & b & -> & Ha & Hb & ->); [|assumption]. cbn [String.eqb].
        exists a. split; [|reflexivity]. exists i, f, ks, (b ++ [x])%list. split; [assumption|]. split; [assumption|]. split; [now rewrite E, app_assoc|]. split; [assumption|apply snoc_ne].
    - intros (a & (i & f & ks & b & Hq & Hs & E & Ha & Hb) & ->).
      destruct (in_dec string_dec (join a) (explicit_paths jp src fs)) as [Hi|Hi]; [now left|]. right; right.
      destruct (member_parent ks (Hm i f ks Hq)) as (l & x & E' & Hn & _). exists (join l).
      split; [apply explicit_spec; exists i, f, ks, l, x; auto|]. split; [|assumption].
      assert (Hg : Forall good l). { pose proof (member_good ks (Hm i f ks Hq)) as G. rewrite E' in G. now apply Forall_app in G as [G _]. }
      rewrite join_split by assumption. apply prefixes_join; [assumption|]. rewrite E in E'. symmetry in E'.
      destruct (snoc_prefix l a b x E' Hb) as (r & -> & _). exists a, r. split; [reflexivity|]. split; [assumption|]. split; [|reflexivity].
      intros ->. apply Hi. apply explicit_spec. rewrite app_nil_r in E'. exists i, f, ks, a, x. split; [assumption|]. split; [assumption|]. split; [congruence|auto].
  Qed.

  Variable ord : list string -> list string.
  Hypothesis Hord : forall l, Permutation (ord l) l.
  Hypothesis Hpred : forall i f ks, request jp src fs i f ks -> cf_pred f = false.
  Variable t : json.
  Hypothesis Hroom : forall i f ks, request jp src fs i f ks -> room t (steps ks).
  Hypothesis Hobj : exists m, t = JObj m.

  Definition mark_ops : list (list string * json) :=
    ((["@explicit"], JBool true)
     :: List.concat (map (fun p => special_ops src (split_on "." p)) (ord (explicit_paths jp src fs)))
     ++ List.concat (map (fun p => special_ops src (split_on "." p)) (ord (interm_paths (explicit_paths jp src fs)))))%list.
  Lemma anc_dotted a : anc jp src fs a -> dotted (join a).
  Proof. intros H. exists a. split; [reflexivity|]. split; [now apply (anc_clean jp src fs Hm)|]. now destruct H as (_ & _ & _ & _ & _ & _ & _ & H & _). Qed.
  Lemma ord_In l x : In x (ord l) <-> In x l.
  Proof. split; apply Permutation_in; [apply Hord|apply Permutation_sym, Hord]. Qed.
  Lemma enhance_doc_puts d : enhance_doc ord (explicit_paths jp src fs) d src = puts mark_ops d.
  Proof.
    unfold enhance_doc, mark_ops. change (sj_set "@explicit" d (JBool true)) with (sj_set (join ["@explicit"]) d (JBool true)).
    rewrite set_join; [|constructor; [apply marker_good; now left|constructor]|discriminate]. cbn [puts].
    destruct (sj_put ["@explicit"] d (JBool true)) as [d1| |]; cbn [bind]; try reflexivity.
    rewrite puts_app, enhance_fields_puts.
    2:{ apply Forall_forall. intros s Hs. apply (proj1 (ord_In _ _)) in Hs. destruct (proj1 (all_anc s) (or_introl Hs)) as (a & Ha & ->). now apply anc_dotted. }
    destruct (puts _ d1) as [d2| |]; cbn [bind]; try reflexivity. apply enhance_fields_puts.
    apply Forall_forall. intros s Hs. apply (proj1 (ord_In _ _)) in Hs. destruct (proj1 (all_anc s) (or_intror Hs)) as (a & Ha & ->). now apply anc_dotted.
  Qed.
  Lemma mark_ops_In p v : In (p, v) mark_ops <-> (p = ["@explicit"] /\ v = JBool true) \/ exists a, anc jp src fs a /\ In (p, v) (special_ops src a).
  Proof.
    assert (G : forall l, In (p, v) (List.concat (map (fun p => special_ops src (split_on "." p)) (ord l))) <-> exists s, In s l /\ In (p, v) (special_ops src (split_on "." s))).
    { intros l. rewrite in_concat. split.
      - intros (x & Hx & Hp). apply in_map_iff in Hx as (s & <- & Hs). apply (proj1 (ord_In _ _)) in Hs. exists s. auto.
      - intros (s & Hs & Hp). exists (special_ops src (split_on "." s)). split; [|assumption]. apply in_map_iff. exists s. split; [reflexivity|]. now apply ord_In. }
    unfold mark_ops. cbn [In]. rewrite in_app_iff, !G. split.
    - intros [[= <- <-]|[(s & Hs & Hp)|(s & Hs & Hp)]]; [auto| |]; right.
      + destruct (proj1 (all_anc s) (or_introl Hs)) as (a & Ha & ->). exists a. split; [assumption|].
        destruct (anc_clean jp src fs Hm a Ha) as [Hg _]. rewrite join_split in Hp; [assumption|assumption|]. now destruct Ha as (_ & _ & _ & _ & _ & _ & _ & Ha & _).
      + destruct (proj1 (all_anc s) (or_intror Hs)) as (a & Ha & ->). exists a. split; [assumption|].
        destruct (anc_clean jp src fs Hm a Ha) as [Hg _]. rewrite join_split in Hp; [assumption|assumption|]. now destruct Ha as (_ & _ & _ & _ & _ & _ & _ & Ha & _).
    - intros [[-> ->]|(a & Ha & Hp)]; [now left|]. right.
      assert (Ej : split_on "." (join a) = a).
      { apply join_split; [now apply (anc_clean jp src fs Hm)|]. now destruct Ha as (_ & _ & _ & _ & _ & _ & _ & Ha & _). }
      destruct (proj2 (all_anc (join a))) as [H|H]; [exists a; auto|left|right]; exists (join a); rewrite Ej; auto.
  Qed.
  Lemma room_framed p v : framed jp src fs p v -> room t p.
  Proof.
    intros H. apply framed_cases in H as [[-> ->]|[(i & f & ks & Hq & _ & -> & _)|(a & (i & f & ks & b & Hq & Hs & E & Ha & Hb) & Hi)]].
    - destruct Hobj as (m & ->). cbn [room]. destruct (mget m "@explicit"); exact I.
    - now apply (Hroom i f).
    - apply special_shape in Hi as (s & Hsm & -> & _). destruct b as [|y b]; [congruence|]. eapply (room_sibling a t y s b).
      + rewrite <- E. now apply (Hroom i f).
      + pose proof (member_good ks (Hm i f ks Hq)) as G. rewrite E in G. apply Forall_app in G as [_ G]. inversion G as [|? ? (_ & A & _) _]; exact A.
      + now apply marker_good.
  Qed.
  Lemma inert_parts p q : Forall inert p -> Forall inert q -> apart p q -> parts p q.
  Proof.
    intros Hp Hq Ha. destruct (prefix_or_part_s p q) as [(r & E)|[(r & E)|(c & a & b & r & s & E1 & E2 & Hn)]]; [now apply (proj1 Ha) in E|now apply (proj2 Ha) in E|].
    exists c, a, b, r, s. split; [assumption|]. split; [assumption|]. split; [assumption|]. subst.
    apply Forall_app in Hp as [_ Hp], Hq as [_ Hq]. inversion Hp; inversion Hq; subst. rewrite !index_of_name by assumption. tauto.
  Qed.
  Theorem frame_spec : exists d frame, cut_fields jp src t fs = Ok d /\ enhance_doc ord (explicit_paths jp src fs) d src = Ok frame /\
    forall q x, leaf x ->
      (look frame q = Some x <-> (exists p v r, framed jp src fs p v /\ q = (p ++ r)%list /\ look v r = Some x)
                                 \/ (look t q = Some x /\ forall p v, framed jp src fs p v -> apart p q)).
  Proof.
    assert (Hpl : all_plain jp src fs) by (intros i f ks Hq; now apply member_plain, (Hm i f)).
    assert (Htold : forall i f ks, request jp src fs i f ks -> look src (steps ks) = Some (told src f ks)).
    { intros i f ks Hq. unfold told. rewrite (Hpred i f ks Hq).
      destruct (located_look ks src (Hl i f ks Hq)) as (v & Ev); [now apply (Hpl i f)|]. now rewrite Ev. }
    assert (Hj' : forall f, In f fs -> exists rs, jp (cf_paths f) src = Ok rs /\ ~ In [] rs).
    { intros f Hf. destruct (Hj f Hf) as (rs & Hrs). exists rs. split; [assumption|]. intros Hn. apply In_nth_error in Hf as (i & Hi).
      destruct (Hm i f []) as (l & x & E & _); [split; [assumption|exists rs; auto]|]. destruct l; discriminate. }
    destruct (cut_succeeds jp src fs t Hpl) as (d & Hd).
    { intros i j f g p v w r s _ Hq _. destruct (Hm i f _ Hq) as (l & x & E & _).
      assert (HF : Forall (fun k => match k with KName _ => True | KIdx _ => False end) (map KName (l ++ [x])%list)) by (rewrite Forall_map; apply Forall_forall; auto).
      rewrite <- E in HF. apply Forall_app in HF as [_ HF]. inversion HF; assumption. }
    { assumption. } { assumption. } { assumption. }
    { intros i f ks rank Hq. rewrite member_moved by now apply (Hm i f). now apply (Hroom i f). }
    destruct (cut_ops jp src fs t d Hpl Hd) as (rank & ops & _ & Hp & Ho).
    assert (Hall : forall p v, In (p, v) (ops ++ mark_ops)%list <-> framed jp src fs p v).
    { intros p v. rewrite in_app_iff, Ho, mark_ops_In, framed_cases. split.
      - intros [(i & f & ks & Hq & -> & -> & Hs)|H]; [|tauto]. rewrite member_moved in * by now apply (Hm i f). right; left. exists i, f, ks.
        split; [assumption|]. split; [assumption|]. split; [reflexivity|]. now apply (Htold i).
      - intros [H|[(i & f & ks & Hq & Hs & -> & Hk)|H]]; [tauto| |tauto]. left. exists i, f, ks. rewrite member_moved by now apply (Hm i f).
        rewrite (Htold i f ks Hq) in Hk. injection Hk as <-. auto. }
    assert (Hin : Forall (fun o => Forall inert (fst o)) (ops ++ mark_ops)%list).
    { apply Forall_forall. intros [p v] Hi. apply Hall in Hi. cbn [fst]. apply good_ok. now apply (framed_good jp src fs Hm p v). }
    destruct (puts_ok (ops ++ mark_ops)%list t) as (frame & Hf).
    { eapply Forall_impl; [|exact Hin]. intros o. apply inert_ok. }
    { intros p v Hi. apply Hall in Hi. now apply room_framed in Hi. }
    { intros p v q w Hi Hi'. pose proof Hi as Hi0. pose proof Hi' as Hi0'. apply Hall in Hi, Hi'.
      destruct (framed_disjoint jp src fs Hm Hv p v q w Hi Hi') as [[-> _]|Ha]; [now left|right].
      rewrite Forall_forall in Hin. apply inert_parts; [now apply (Hin (p, v))|now apply (Hin (q, w))|assumption]. }
    exists d, frame. split; [assumption|]. split.
    { rewrite enhance_doc_puts. rewrite puts_app, Hp in Hf. exact Hf. }
    intros q x Hx. rewrite (puts_char _ t frame Hin Hf).
    - split; (intros [(p & v & r & Hi & H)|[H1 H2]]; [left; exists p, v, r; split; [now apply Hall|assumption]|right; split; [assumption|intros p v Hi; apply (H2 p v); now apply Hall]]).
    - intros p v q' w Hi Hi'. apply Hall in Hi, Hi'. now apply (framed_disjoint jp src fs Hm Hv).
    - assumption.
  Qed.
End FrameDoc.
