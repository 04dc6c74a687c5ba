(** Histories of careful callers: Go's memory always shows the values. *)
From Verif Require Import GoBase AlModel AlSpec AlProofs AlProofs2.
Local Open Scope nat_scope.

Lemma nth_upd_ne : forall h l l' c, l' <> l -> nth_error (upd h l c) l' = nth_error h l'.
Proof. induction h as [|x h IH]; intros [|l] [|l'] c H; cbn; try reflexivity; try congruence. apply IH. congruence. Qed.
Lemma nth_upd_eq : forall h l c, l < List.length h -> nth_error (upd h l c) l = Some c.
Proof. induction h as [|x h IH]; intros [|l] c H; cbn in *; try reflexivity; try (now inversion H). apply IH. now apply Nat.succ_lt_mono. Qed.
Lemma upd_length : forall h l c, List.length (upd h l c) = List.length h.
Proof. induction h as [|x h IH]; intros [|l] c; cbn; auto. Qed.
Lemma val_new : forall T h c v j, val_ok T h v j -> val_ok (List.length h :: T) (h ++ [c])%list v j.
Proof.
  intros T h c v j [n H]. exists n. revert H. apply rdT_cells. intros l d Hl N. split; [now apply nth_ext_heap|]. cbn.
  assert (l < List.length h) by (apply nth_error_Some; congruence). destruct (Nat.eqb l (List.length h)) eqn:E; [apply Nat.eqb_eq in E; subst; now apply Nat.lt_irrefl in H|assumption].
Qed.
Lemma val_upd : forall T h l c v j, In l T -> val_ok T h v j -> val_ok T (upd h l c) v j.
Proof.
  intros T h l c v j Hl [n H]. exists n. revert H. apply rdT_cells. intros l' d E N. split; [|assumption]. rewrite nth_upd_ne; [assumption|].
  intros ->. apply inb_In in Hl. congruence.
Qed.
(** relations between the stores that survive allocation and writing tops *)
Definition cred_at (T : list nat) (h : heap) (ms : gomap hval) (c : cred go_store) (d : cred value_store) : Prop :=
  mems_ok T h ms (c_json d) /\ mems_ok T h (c_cont c) (c_cont d) /\ vals_ok T h (c_proofs c) (c_proofs d) /\ c_env c = c_env d.
Definition cred_ok (T : list nat) (h : heap) (c : cred go_store) (d : cred value_store) : Prop :=
  In (c_json c) T /\ exists ms, nth_error h (c_json c) = Some (CObj ms) /\ cred_at T h ms c d.
Definition map_ok (T : list nat) (h : heap) (o : nat) (m : gomap json) : Prop := In o T /\ exists ms, nth_error h o = Some (CObj ms) /\ mems_ok T h ms m.
Definition moves (T : list nat) (h : heap) (T' : list nat) (h' : heap) : Prop := forall v j, val_ok T h v j -> val_ok T' h' v j.
Lemma moves_mems : forall T h T' h' l r, moves T h T' h' -> mems_ok T h l r -> mems_ok T' h' l r.
Proof. intros T h T' h' l r M. apply F2_imp. intros a b _ [A B]. split; auto. Qed.
Lemma moves_vals : forall T h T' h' l r, moves T h T' h' -> vals_ok T h l r -> vals_ok T' h' l r.
Proof. intros T h T' h' l r M. apply F2_imp. auto. Qed.
Lemma moves_at : forall T h T' h' ms c d, moves T h T' h' -> cred_at T h ms c d -> cred_at T' h' ms c d.
Proof. intros T h T' h' ms c d M (A & B & C & D). repeat split; eauto using moves_mems, moves_vals. Qed.
Lemma moves_ext : forall T h h', ext h h' -> moves T h T h'.
Proof. intros T h h' E v j. now apply val_ok_ext. Qed.
Lemma moves_new : forall T h c, moves T h (List.length h :: T) (h ++ [c])%list.
Proof. intros T h c v j. apply val_new. Qed.
Lemma moves_upd : forall T h l c, In l T -> moves T h T (upd h l c).
Proof. intros T h l c H v j. now apply val_upd. Qed.

(** results that end in a new object, and results that end in a write to object [l] *)
Definition rel_new {A B} (T : list nat) (at_ : heap -> gomap hval -> A -> B -> Prop) (loc : A -> nat) (h : heap) (x : res (hmem * A)) (y : res (mem value_store * B)) : Prop :=
  match x, y with
  | Ok (h2, a), Ok (_, b) => exists h1 ms, ext h h1 /\ h2 = (h1 ++ [CObj ms])%list /\ loc a = List.length h1 /\ at_ h1 ms a b
  | Err e, Err e' => e = e' | Panic, Panic => True | _, _ => False end.
Definition rel_put {A B} (T : list nat) (at_ : heap -> gomap hval -> A -> B -> Prop) (loc : A -> nat) (l : nat) (h : heap) (x : res (hmem * A)) (y : res (mem value_store * B)) : Prop :=
  match x, y with
  | Ok (h2, a), Ok (_, b) => exists h1 ms, ext h h1 /\ loc a = l /\ at_ h1 ms a b /\ h2 = upd h1 l (CObj ms)
  | Err e, Err e' => e = e' | Panic, Panic => True | _, _ => False end.
Lemma new_bnd : forall A A' B B' T (P : heap -> A -> A' -> Prop) (at_ : heap -> gomap hval -> B -> B' -> Prop) loc h (m : st go_store A) (m' : st value_store A') f f',
  rel T P h (m h) (m' tt) -> (forall h1 a b, ext h h1 -> P h1 a b -> rel_new T at_ loc h1 (f a h1) (f' b tt)) -> rel_new T at_ loc h (bnd go_store m f h) (bnd value_store m' f' tt).
Proof.
  intros A A' B B' T P at_ loc h m m' f f' H K. unfold bnd. destruct (m h) as [[h1 a]| |], (m' tt) as [[[] b]| |]; cbn in *; try contradiction; auto.
  destruct H as [E Hp]. specialize (K h1 a b E Hp). destruct (f a h1) as [[h2 c]| |], (f' b tt) as [[[] d]| |]; cbn in *; try contradiction; auto.
  destruct K as (h3 & ms & E3 & R). exists h3, ms. split; [now apply (ext_trans h h1)|assumption].
Qed.
Lemma put_bnd : forall A A' B B' T (P : heap -> A -> A' -> Prop) (at_ : heap -> gomap hval -> B -> B' -> Prop) loc l h (m : st go_store A) (m' : st value_store A') f f',
  rel T P h (m h) (m' tt) -> (forall h1 a b, ext h h1 -> P h1 a b -> rel_put T at_ loc l h1 (f a h1) (f' b tt)) -> rel_put T at_ loc l h (bnd go_store m f h) (bnd value_store m' f' tt).
Proof.
  intros A A' B B' T P at_ loc l h m m' f f' H K. unfold bnd. destruct (m h) as [[h1 a]| |], (m' tt) as [[[] b]| |]; cbn in *; try contradiction; auto.
  destruct H as [E Hp]. specialize (K h1 a b E Hp). destruct (f a h1) as [[h2 c]| |], (f' b tt) as [[[] d]| |]; cbn in *; try contradiction; auto.
  destruct K as (h3 & ms & E3 & R). exists h3, ms. split; [now apply (ext_trans h h1)|assumption].
Qed.
Notation newC T := (rel_new T (cred_at T) (c_json (W := go_store))).
Notation putC T := (rel_put T (cred_at T) (c_json (W := go_store))).
Definition map_at (T : list nat) (h : heap) (ms : gomap hval) (o : nat) (m : gomap json) : Prop := mems_ok T h ms m.
Notation newM T := (rel_new T (map_at T) (fun o : nat => o)).
Notation putM T := (rel_put T (map_at T) (fun o : nat => o)).
Lemma new_cred_ok : forall T h ms js cont cont' ps ps' e, mems_ok T h ms js -> mems_ok T h cont cont' -> vals_ok T h ps ps' ->
  newC T h (new_cred go_store ms cont ps e h) (new_cred value_store js cont' ps' e tt).
Proof. intros. cbn. exists h, ms. repeat split; auto. apply ext_refl. Qed.
Lemma fresh_map_ok : forall T h ms js, mems_ok T h ms js -> newM T h (fresh_map go_store ms h) (fresh_map value_store js tt).
Proof. intros. cbn. exists h, ms. repeat split; auto. apply ext_refl. Qed.

Section Calls.
  Variable T : list nat.
  Lemma cred_json_ok : forall h c d, cred_ok T h c d -> rel T (mems_ok T) h (cred_json go_store c h) (cred_json value_store d tt).
  Proof. intros h c d (_ & ms & N & A & _). split; [apply ext_refl|]. cbn. now rewrite N. Qed.
  Lemma cred_ok_ext : forall h h1 c d, ext h h1 -> cred_ok T h c d -> cred_ok T h1 c d.
  Proof. intros h h1 c d E (I & ms & N & A). split; [assumption|]. exists ms. split; [now apply (ext_nth h)|]. revert A. apply moves_at. now apply moves_ext. Qed.
  Lemma map_ok_ext : forall h h1 o m, ext h h1 -> map_ok T h o m -> map_ok T h1 o m.
  Proof. intros h h1 c d E (I & ms & N & A). split; [assumption|]. exists ms. split; [now apply (ext_nth h)|]. now apply (mems_ok_ext T h). Qed.
  Lemma to_raw_ok : forall h c d, below T h -> cred_ok T h c d -> rel T (mems_ok T) h (to_raw go_store c h) (to_raw value_store d tt).
  Proof.
    intros h c d B C. unfold to_raw. bnd_with (mems_ok T); [now apply cred_json_ok|]. intros h1 ms js E F.
    assert (P : vals_ok T h1 (c_proofs c) (c_proofs d)) by (destruct C as (_ & m & _ & _ & _ & P & _); now apply (vals_ok_ext T h)).
    change (val go_store) with hval in *. change (val value_store) with json in *.
    destruct (c_proofs c) as [|a ps], (c_proofs d) as [|b ps']; try (now inversion P); [now apply rel_ret|]. bnd_with (val_ok T).
    - apply (proofs_out_ok T); [bel|exact P].
    - intros h2 v v' E2 V. apply rel_ret. apply mems_set; [now apply (mems_ok_ext T h1)|assumption].
  Qed.
  Lemma write_json_ok : forall h c d k v j ps ps', cred_ok T h c d -> val_ok T h v j -> vals_ok T h ps ps' ->
    putC T (c_json c) h (write_json go_store c k v ps h) (write_json value_store d k j ps' tt).
  Proof.
    intros h c d k v j ps ps' (I & ms & N & A & B & C & D) V P. cbn. rewrite N. exists h, (mset ms k v). split; [apply ext_refl|]. repeat split; auto. now apply mems_set.
  Qed.
  Lemma create_ok : forall h contents custom proofs, below T h -> newC T h (create go_store contents custom proofs h) (create value_store contents custom proofs tt).
  Proof.
    intros h contents custom proofs B. unfold create.
    eapply new_bnd; [apply load_members_ok, B|]. intros h1 cont cont' E1 C. assert (B1 : below T h1) by bel.
    eapply new_bnd; [apply is_v2_ok, C|]. intros h2 v2 v2' E2 <-. assert (B2 : below T h2) by bel.
    eapply new_bnd; [apply document_of_ok with (js := []); [bel|now apply (mems_ok_ext T h1)|constructor]|]. intros h3 ms js E3 F. assert (B3 : below T h3) by bel.
    eapply new_bnd; [apply loads_ok, B3|]. intros h4 ps ps' E4 P. assert (B4 : below T h4) by bel.
    eapply new_bnd; [apply proofs_out_ok; eassumption|]. intros h5 p p' E5 V. assert (B5 : below T h5) by bel.
    eapply new_bnd; [apply load_members_ok, B5|]. intros h6 cs cs' E6 CS.
    assert (P6 : vals_ok T h6 ps ps') by (apply (vals_ok_ext T h4); [bel|assumption]).
    assert (M6 : mems_ok T h6 ms js) by (apply (mems_ok_ext T h3); [bel|assumption]).
    apply new_cred_ok; [|apply (mems_ok_ext T h1); [bel|assumption]|assumption].
    apply mems_add_missing; [|assumption]. inversion P6; subst; [assumption|]. apply mems_set; [assumption|]. now apply (val_ok_ext T h5).
  Qed.
  Lemma modify_ok : forall h c d f arg, below T h -> cred_ok T h c d -> newC T h (modify go_store c f arg h) (modify value_store d f arg tt).
  Proof.
    intros h c d f arg B C. unfold modify.
    eapply new_bnd; [apply load_ok, B|]. intros h1 v j E1 V. assert (B1 : below T h1) by bel.
    eapply new_bnd; [apply encode_ok; eassumption|]. intros h2 o o' E2 O. assert (B2 : below T h2) by bel.
    assert (C2 : cred_ok T h2 c d) by (apply (cred_ok_ext h); [bel|assumption]).
    eapply new_bnd; [apply cred_json_ok, C2|]. intros h3 ms js E3 F. assert (C3 : cred_ok T h3 c d) by (apply (cred_ok_ext h2); [bel|assumption]).
    assert (O3 : optP T h3 o o') by (destruct o, o'; cbn in *; try assumption; now apply (val_ok_ext T h2)).
    assert (CC : mems_ok T h3 (c_cont c) (c_cont d)) by (destruct C3 as (_ & m & _ & _ & CC & _); exact CC).
    apply new_cred_ok; [|apply mems_set; [exact CC|apply (val_ok_ext T h1); [bel|assumption]]|constructor].
    apply set_member_ok; [|assumption]. now apply mems_del.
  Qed.
  Lemma add_ld_ok : forall h c d p, below T h -> cred_ok T h c d -> putC T (c_json c) h (add_ld go_store c p h) (add_ld value_store d p tt).
  Proof.
    intros h c d p B C. unfold add_ld.
    eapply put_bnd; [apply load_ok, B|]. intros h1 v j E1 V. assert (B1 : below T h1) by bel.
    assert (C1 : cred_ok T h1 c d) by (apply (cred_ok_ext h); [bel|assumption]).
    eapply put_bnd; [apply cred_json_ok, C1|]. intros h2 ms js E2 F. assert (B2 : below T h2) by bel.
    eapply put_bnd; [apply (proof_member_ok T); eassumption|]. intros h3 old old' E3 O. assert (B3 : below T h3) by bel.
    assert (N : vals_ok T h3 (old ++ [v])%list (old' ++ [j])%list) by (apply Forall2_app; [assumption|constructor; [apply (val_ok_ext T h1); [bel|assumption]|constructor]]).
    eapply put_bnd; [apply (rel_mk T h3 (SArr (old ++ [v])%list) (SArr (old' ++ [j])%list)); [assumption|exact N]|]. intros h4 w w' E4 Wd.
    apply write_json_ok; [apply (cred_ok_ext h); [bel|assumption]|assumption|now apply (vals_ok_ext T h3)].
  Qed.
  Lemma reset_ok : forall h c d ps, below T h -> cred_ok T h c d -> putC T (c_json c) h (reset go_store c ps h) (reset value_store d ps tt).
  Proof.
    intros h c d ps B C. unfold reset.
    eapply put_bnd; [apply loads_ok, B|]. intros h1 v j E1 V. assert (B1 : below T h1) by bel.
    eapply put_bnd; [apply proofs_out_ok; eassumption|]. intros h2 w w' E2 Wd.
    apply write_json_ok; [apply (cred_ok_ext h); [bel|assumption]|assumption|now apply (vals_ok_ext T h1)].
  Qed.
  Lemma same_cred : forall h c d e e' ps ps', cred_ok T h c d -> vals_ok T h ps ps' -> e = e' ->
    putC T (c_json c) h (Ok (h, Build_cred (W := go_store) (c_json c) (c_cont c) ps e)) (Ok (tt, Build_cred (W := value_store) (c_json d) (c_cont d) ps' e')).
  Proof.
    intros h c d e e' ps ps' (I & ms & N & A & B & C & D) P E. exists h, ms. split; [apply ext_refl|]. split; [reflexivity|]. split; [repeat split; auto|].
    revert N. clear. cbn. generalize (c_json c) as l. induction h as [|x h IH]; intros [|l] N; cbn in *; try discriminate; [now injection N as ->|]. f_equal. now apply IH.
  Qed.
  Lemma add_di_ok : forall h c d ps, below T h -> cred_ok T h c d -> putC T (c_json c) h (add_di go_store c ps h) (add_di value_store d ps tt).
  Proof.
    intros h c d ps B C. unfold add_di.
    eapply put_bnd; [apply loads_ok, B|]. intros h1 v j E1 V. assert (B1 : below T h1) by bel.
    assert (C1 : cred_ok T h1 c d) by (apply (cred_ok_ext h); [bel|assumption]).
    change (val go_store) with hval in *. change (val value_store) with json in *.
    destruct v as [|a vs], j as [|b js]; try (now inversion V).
    - apply same_cred; [assumption|constructor|]. destruct C1 as (_ & m & _ & _ & _ & _ & Q). exact Q.
    - eapply put_bnd; [apply proofs_out_ok; [assumption|exact V]|]. intros h2 w w' E2 Wd.
      apply write_json_ok; [now apply (cred_ok_ext h1)|assumption|]. now apply (vals_ok_ext T h1).
  Qed.
End Calls.

(** ** The invariant *)
Record simT (T : list nat) (gone : list nat) (g : world go_store) (v : world value_store) : Prop := {
  si_below : below T (w_mem g);
  si_creds : Forall2 (cred_ok T (w_mem g)) (w_creds g) (w_creds v);
  si_len : List.length (w_maps g) = List.length (w_maps v);
  si_maps : forall r o m, ~ In r gone -> nth_error (w_maps g) r = Some o -> nth_error (w_maps v) r = Some m -> map_ok T (w_mem g) o m;
  si_cc : forall i j c d, nth_error (w_creds g) i = Some c -> nth_error (w_creds g) j = Some d -> c_json c = c_json d -> i = j;
  si_mm : forall r s o, ~ In r gone -> ~ In s gone -> nth_error (w_maps g) r = Some o -> nth_error (w_maps g) s = Some o -> r = s;
  si_cm : forall i r c o, ~ In r gone -> nth_error (w_creds g) i = Some c -> nth_error (w_maps g) r = Some o -> c_json c <> o }.
Definition sim (gone : list nat) (g : world go_store) (v : world value_store) : Prop := exists T, simT T gone g v.
