(** The evaluator, keyword by keyword. *)
From Verif Require Import GoBase StatusModel SdSpec JsModel JsSpec.

(** ** jsame decides equality of JSON values *)
Lemma num_eqb_eq p q : num_eqb p q = true <-> p = q.
Proof.
  unfold num_eqb. rewrite andb_true_iff, Z.eqb_eq, Pos.eqb_eq. destruct p as [a b], q as [c d]. cbn. split; [intros [-> ->]; reflexivity|intros H; injection H; auto].
Qed.
Lemma jsame_sound a : wf_json a -> forall b, wf_json b -> jsame a b = true -> jeq a b.
Proof.
  induction a as [|x|q|s|l IH|m IH] using json_ind'; intros Ha b Hb; destruct b as [|y|r|t|k|k]; cbn [jsame]; intros H; try discriminate H.
  - now constructor.
  - apply Bool.eqb_prop in H as ->. now constructor.
  - apply num_eqb_eq in H as ->. now constructor.
  - apply String.eqb_eq in H as ->. now constructor.
  - constructor. revert k Hb H. induction IH as [|x l Hx _ IHl]; intros [|y k] Hb H; try discriminate H; [constructor|].
    apply andb_true_iff in H as [H1 H2]. destruct Ha as [Ha1 Ha2], Hb as [Hb1 Hb2]. constructor; auto.
  - apply andb_true_iff in H as [Hl H]. apply Nat.eqb_eq in Hl. destruct Ha as [Hn Ha], Hb as [Hnk Hb].
    (* order the members of m as in k *)
    assert (Hall : forall n x, In (n, x) m -> exists y, In (n, y) k /\ jeq x y).
    { clear Hl Hn. revert Ha H. induction IH as [|[n0 x0] m Hx _ IHm]; intros Ha H n x Hi0; [destruct Hi0|destruct Hi0 as [E|Hi]].
      - injection E as <- <-. apply andb_true_iff in H as [H _]. destruct (mget k n0) as [y|] eqn:Ey; [|discriminate].
        exists y. split; [now apply mget_In|]. apply Hx; [apply Ha| |exact H].
        apply mget_In in Ey. clear -Hb Ey. induction k as [|[u w] k IH]; [destruct Ey|]. destruct Ey as [E|E]; [injection E as -> ->; apply Hb|apply IH; [apply Hb|assumption]].
      - apply andb_true_iff in H as [_ H]. apply (IHm (proj2 Ha) H n x Hi). }
    clear IH H Ha Hb.
    assert (Hperm : exists p, Permutation m p /\ Forall2 (fun a b => fst a = fst b /\ jeq (snd a) (snd b)) p k).
    { revert m Hn Hl Hall. induction k as [|[n y] k IHk]; intros m Hn Hl Hall.
      - destruct m; [|discriminate]. exists []. split; constructor.
      - (* some member of m is called n *)
        assert (Hin : exists x, In (n, x) m).
        { assert (Hincl : incl (map fst m) (map fst ((n, y) :: k))).
          { intros u Hu. apply in_map_iff in Hu as ([u' x] & <- & Hu). destruct (Hall _ _ Hu) as (z & Hz & _). apply in_map_iff. now exists (u', z). }
          assert (Hback : incl (map fst ((n, y) :: k)) (map fst m)).
          { apply NoDup_length_incl; [assumption|rewrite !map_length; cbn in *; lia|assumption]. }
          destruct (proj1 (in_map_iff _ _ _) (Hback n (or_introl eq_refl))) as ([u x] & E & Hx). cbn in E. subst u. now exists x. }
        destruct Hin as (x & Hx). apply in_split in Hx as (m1 & m2 & ->).
        assert (Hn' : NoDup (map fst (m1 ++ m2)%list)). { rewrite map_app in *. cbn in Hn. now apply NoDup_remove_1 in Hn. }
        assert (Hfresh : ~ In n (map fst (m1 ++ m2)%list)). { rewrite map_app in *. cbn in Hn. now apply NoDup_remove_2 in Hn. }
        inversion Hnk as [|u r Hnot Hnk' Eu]; subst u r.
        destruct (IHk Hnk' (m1 ++ m2)%list Hn') as (p & Hp & Hf).
        { rewrite !app_length in *. cbn in *. lia. }
        { intros u z Hu. destruct (Hall u z) as (w & [E|Hw] & Hj).
          - apply in_app_iff in Hu as [Hu|Hu]; apply in_app_iff; [now left|right; now right].
          - injection E as -> ->. exfalso. apply Hfresh. apply in_map_iff. now exists (u, z).
          - now exists w. }
        exists ((n, x) :: p). split.
        + apply Permutation_sym. eapply Permutation_trans; [apply perm_skip, Permutation_sym, Hp|]. apply Permutation_middle.
        + constructor; [|assumption]. split; [reflexivity|]. cbn.
          destruct (Hall n x) as (w & [E|Hw] & Hj); [apply in_app_iff; right; now left|injection E as ->; assumption|].
          exfalso. apply Hnot. apply in_map_iff. now exists (n, w). }
    destruct Hperm as (p & Hp & Hf). now apply (jeq_obj m p k).
Qed.
Lemma jsame_complete a : forall b, wf_json b -> jeq a b -> jsame a b = true.
Proof.
  induction a as [|x|q|s|l IH|m IH] using json_ind'; intros b Hb H; inversion H as [j Hj|l1 l2 Hf|m1 p m2 Hp Hf]; subst; cbn [jsame]; auto.
  - apply Bool.eqb_reflx.
  - now apply num_eqb_eq.
  - apply String.eqb_refl.
  - clear H. revert IH Hb. induction Hf as [|x y l k Hxy Hf IHf]; intros IH Hb; [reflexivity|].
    inversion IH as [|u r Hu Hr]; subst. destruct Hb as [Hb1 Hb2]. cbn in Hb1, Hb2. rewrite Hu by assumption. cbn. now apply IHf.
  - apply andb_true_iff. split.
    + apply Nat.eqb_eq. rewrite (Permutation_length Hp). clear -Hf. induction Hf; cbn; congruence.
    + destruct Hb as [Hn Hb].
      assert (Hall : forall n x, In (n, x) m -> exists y, In (n, y) m2 /\ jeq x y).
      { intros n x Hi. apply (Permutation_in _ Hp) in Hi. clear -Hf Hi. induction Hf as [|[u w] [u' w'] p k [E1 E2] Hf IHf]; [destruct Hi|].
        cbn in E1, E2. destruct Hi as [E|Hi]; [injection E as -> ->; subst; exists w'; split; [now left|assumption]|].
        destruct (IHf Hi) as (y & Hy & Hj). exists y. split; [now right|assumption]. }
      clear H Hp Hf p.
      enough (G : forall l, (forall e, In e l -> In e m) -> (fix go (l : list (string * json)) : bool := match l with
        | [] => true | (n, x) :: l => ((match mget m2 n with Some y => jsame x y | None => false end) && go l)%bool end) l = true) by now apply G.
      induction l as [|[n x] l IHl]; intros Hl; [reflexivity|].
      destruct (Hall n x (Hl _ (or_introl eq_refl))) as (y & Hy & Hj). rewrite (mget_In_nodup _ _ _ Hn Hy).
      rewrite Forall_forall in IH. pose proof (IH (n, x) (Hl _ (or_introl eq_refl)) y) as Hs. cbn [snd] in Hs. rewrite Hs; [cbn|  |assumption].
      * apply IHl. intros e He. apply Hl. now right.
      * clear -Hb Hy. induction m2 as [|[u w] k IHk]; [destruct Hy|]. destruct Hy as [E|E]; [injection E as -> ->; apply Hb|apply IHk; [apply Hb|assumption]].
Qed.
Lemma jsame_iff a b : wf_json a -> wf_json b -> jsame a b = true <-> jeq a b.
Proof. intros Ha Hb. split; [now apply jsame_sound|now apply jsame_complete]. Qed.
Lemma jsame_str s d : jsame (JStr s) d = true <-> d = JStr s.
Proof. destruct d; cbn; try (split; [discriminate|congruence]). rewrite String.eqb_eq. split; congruence. Qed.
Lemma wf_arr l : wf_json (JArr l) <-> Forall wf_json l.
Proof. cbn. induction l as [|x l IH]; split; intros H; try constructor; try (inversion H; subst); try tauto. Qed.
Lemma wf_obj m : wf_json (JObj m) <-> NoDup (map fst m) /\ Forall (fun kv => wf_json (snd kv)) m.
Proof. cbn. apply and_iff_compat_l. induction m as [|x l IH]; split; intros H; try constructor; try (inversion H; subst); try tauto. Qed.
Lemma wf_mget m k x : wf_json (JObj m) -> mget m k = Some x -> wf_json x.
Proof. intros Hw Hg. apply wf_obj in Hw as [_ Hw]. rewrite Forall_forall in Hw. apply (Hw (k, x)). now apply mget_In. Qed.
Lemma all_distinct_iff l : Forall wf_json l -> all_distinct l = true <-> distinct l.
Proof.
  intros Hw. induction Hw as [|x l Hx Hw IH]; cbn [all_distinct]; [split; [constructor|reflexivity]|].
  rewrite andb_true_iff, negb_true_iff, IH. unfold distinct. split.
  - intros [H1 H2]. constructor; [|assumption]. apply Forall_forall. intros y Hy Hj.
    assert (E : existsb (jsame x) l = true). { apply existsb_exists. exists y. split; [assumption|]. apply jsame_complete; [|assumption]. rewrite Forall_forall in Hw. auto. }
    congruence.
  - intros H. inversion H as [|u r Hf Hd]; subst. split; [|assumption]. destruct (existsb (jsame x) l) eqn:E; [|reflexivity].
    apply existsb_exists in E as (y & Hy & Hj). rewrite Forall_forall in Hf, Hw. exfalso. apply (Hf y Hy). apply jsame_sound; auto.
Qed.

(** ** One step of the evaluator *)
Section Steps.
  Variable re fmt : string -> string -> bool.
  Variable ext : string -> json -> bool.
  Variable root : json.
  Notation ev := (ev re fmt ext root).
  Lemma ev_S n s d : ev (S n) (JObj s) d = match mget s "$ref" with
            | Some (JStr r) => match resolve root r with Some s' => ev n s' d | None => ext r d end
            | Some _ => false
            | None => (kw_type s d && kw_const s d && kw_enum s d && kw_string re fmt s d && kw_number s d &&
                       kw_comb (ev n) s d && kw_array (ev n) s d && kw_object re (ev n) s d)%bool
            end.
  Proof. reflexivity. Qed.
End Steps.

Lemma mhas_has m k : mhas m k = true <-> has m k.
Proof. unfold mhas, has. destruct (mget m k) as [x|]; split; try discriminate; eauto. intros [y H]; discriminate. Qed.

(** members described by "properties" only *)
Lemma open_members re v props m : NoDup (map fst m) -> NoDup (map fst props) ->
  (forall add, add = None \/ (add = Some (JBool true) /\ forall x, v (JBool true) x = true) ->
  forallb (fun kv => member_ok re v props [] add (fst kv) (snd kv)) m = true <->
  Forall (fun p => member m (fst p) (fun x => v (snd p) x = true)) props).
Proof.
  intros Hn Hp add Hadd. rewrite forallb_forall, Forall_forall. unfold member_ok, member. cbn [filter forallb]. split.
  - intros H [k s] Hin x Hx. cbn in *. specialize (H _ (mget_In _ _ _ Hx)). cbn in H.
    rewrite (mget_In_nodup _ _ _ Hp Hin), andb_true_r in H. now apply andb_true_iff in H as [H _].
  - intros H [k x] Hin. cbn. destruct (mget props k) as [s|] eqn:Es.
    + rewrite (H (k, s)); [reflexivity|now apply mget_In|]. cbn. now apply mget_In_nodup.
    + cbn. destruct Hadd as [->|[-> Ht]]; [reflexivity|apply Ht].
Qed.
(** no member outside "properties" *)
Lemma closed_members re v props m : NoDup (map fst m) -> NoDup (map fst props) -> (forall x, v (JBool false) x = false) ->
  forallb (fun kv => member_ok re v props [] (Some (JBool false)) (fst kv) (snd kv)) m = true <->
  Forall (fun p => member m (fst p) (fun x => v (snd p) x = true)) props /\ (forall k, has m k -> In k (map fst props)).
Proof.
  intros Hn Hp Hf. rewrite forallb_forall, Forall_forall. unfold member_ok, member. cbn [filter forallb]. split.
  - intros H. split.
    + intros [k s] Hin x Hx. cbn in *. specialize (H _ (mget_In _ _ _ Hx)). cbn in H.
      rewrite (mget_In_nodup _ _ _ Hp Hin), andb_true_r in H. now apply andb_true_iff in H as [H _].
    + intros k [x Hx]. specialize (H _ (mget_In _ _ _ Hx)). cbn in H. destruct (mget props k) as [s|] eqn:Es; [|rewrite Hf in H; discriminate].
      apply mget_In in Es. apply in_map_iff. now exists (k, s).
  - intros [H1 H2] [k x] Hin. cbn. pose proof (mget_In_nodup _ _ _ Hn Hin) as Hx. destruct (mget props k) as [s|] eqn:Es.
    + rewrite (H1 (k, s)); [reflexivity|now apply mget_In|]. exact Hx.
    + exfalso. destruct (proj1 (in_map_iff _ _ _) (H2 k (ex_intro _ x Hx))) as ([k' s] & E & Hi). cbn in E. subst k'. rewrite (mget_In_nodup _ _ _ Hp Hi) in Es. discriminate.
Qed.
Lemma forallb_each (P : json -> Prop) v l : (forall x, In x l -> v x = true <-> P x) -> forallb v l = true <-> each P l.
Proof. intros H. rewrite forallb_forall. unfold each. split; intros G x Hx; apply H; auto; now apply G. Qed.
Lemma existsb_some (P : json -> Prop) v l : (forall x, In x l -> v x = true <-> P x) -> existsb v l = true <-> some P l.
Proof. intros H. rewrite existsb_exists. unfold some. split; intros (x & Hx & G); exists x; split; auto; now apply H. Qed.
Lemma member_iff m k (P Q : json -> Prop) : (forall x, mget m k = Some x -> P x <-> Q x) -> member m k P <-> member m k Q.
Proof. unfold member. intros H. split; intros G x Hx; apply (H x Hx); auto. Qed.
Lemma required_iff m k (P : json -> Prop) : required m k P <-> has m k /\ member m k P.
Proof.
  unfold required, has, member. split.
  - intros (x & Hx & HP). split; [eauto|]. intros y Hy. congruence.
  - intros [(x & Hx) H]. eauto.
Qed.
