(** The functions between two writes do the same in both stores. *)
From Verif Require Import GoBase AlModel AlSpec AlProofs.
Local Open Scope nat_scope.

Definition eqP {A} (h : heap) (a b : A) : Prop := a = b.
Definition optP (T : list nat) (h : heap) (a : option hval) (b : option json) : Prop := match a, b with Some v, Some j => val_ok T h v j | None, None => True | _, _ => False end.
Ltac bel := first [assumption | apply ext_refl | match goal with
  | |- below ?T ?b => match goal with E : ext ?a b |- _ => apply (below_ext T a b E); bel end
  | |- ext ?a ?b => match goal with E : ext ?c b |- _ => apply (ext_trans a c b); [bel|exact E] end end].
Ltac bnd_with X := eapply rel_bnd with (P := X).

Section Rel.
  Variable T : list nat.
  Notation R P h x y := (rel T P h (x h) (y tt)).
  Lemma text_of_ok : forall h v j, val_ok T h v j -> R eqP h (text_of go_store v) (text_of value_store j).
  Proof.
    intros h v j V. unfold text_of. bnd_with (shape_ok T); [now apply rel_lk|]. intros h1 x y E S. destruct x, y; cbn in S; try contradiction; subst; try apply rel_fail. now apply rel_ret.
  Qed.
  Lemma text_at_ok : forall h ms js k, mems_ok T h ms js -> R eqP h (text_at go_store ms k) (text_at value_store js k).
  Proof.
    intros h ms js k F. unfold text_at. pose proof (mems_get T h ms js k F) as G. change (val go_store) with hval. change (val value_store) with json.
    destruct (mget ms k), (mget js k); try contradiction; [now apply text_of_ok|now apply rel_ret].
  Qed.
  Lemma split_obj_ok : forall h keys v j, below T h -> val_ok T h v j -> R (val_ok T) h (split_obj go_store keys v) (split_obj value_store keys j).
  Proof.
    intros h keys v j B V. unfold split_obj. bnd_with (shape_ok T); [now apply rel_lk|]. intros h1 x y E S. destruct x, y; cbn in S; try contradiction; subst; try apply rel_fail.
    bnd_with (mems_ok T).
    - apply (rel_each string string (string * hval) (string * json) T (fun h a b => a = b /\ below T h /\ mems_ok T h m m0) (mem_ok T)).
      + intros h2 h3 a b E1 (A & C & D). split; [assumption|]. split; [bel|]. now apply (mems_ok_ext T h2).
      + intros h2 h3 a b E1 [A C]. split; [assumption|]. now apply (val_ok_ext T h2).
      + intros h2 a b E1 (-> & C & D). bnd_with (@eqP string); [now apply text_at_ok|]. intros h3 s s' E2 <-. bnd_with (val_ok T); [apply rel_mk; [bel|reflexivity]|].
        intros h4 w w' E3 W. apply rel_ret. now split.
      + assert (B1 : below T h1) by bel. clear - B1 S. induction keys; constructor; auto.
    - intros h2 fl fl' E2 F. bnd_with (val_ok T).
      + apply rel_mk; [bel|]. cbn. apply mems_without. now apply (mems_ok_ext T h1).
      + intros h3 r r' E3 V3. apply rel_mk; [bel|]. cbn. apply mems_app; [now apply (mems_ok_ext T h2)|]. repeat constructor. exact V3.
  Qed.
  Lemma bare_ok : forall h v j, below T h -> val_ok T h v j -> R (val_ok T) h (bare go_store v) (bare value_store j).
  Proof. intros h v j B V. apply rel_mk; [assumption|]. repeat constructor. exact V. Qed.
  Lemma lst : forall h (f : hval -> st go_store hval) (f' : json -> st value_store json) vs js,
    below T h -> (forall h1 a b, below T h1 -> val_ok T h1 a b -> R (val_ok T) h1 (f a) (f' b)) -> vals_ok T h vs js ->
    R (vals_ok T) h (each go_store f vs) (each value_store f' js).
  Proof.
    intros h f f' vs js B Hf F. apply (rel_each hval json hval json T (val_ok T) (val_ok T)); auto.
    - intros; eapply val_ok_ext; eassumption.
    - intros; eapply val_ok_ext; eassumption.
    - intros h1 a b E V. apply Hf; bel.
  Qed.
  Lemma objs_ok : forall h k x y, below T h -> shape_ok T h x y -> forall v j, val_ok T h v j ->
    R (val_ok T) h (match x with SArr vs => bnd go_store (each go_store (split_obj go_store k) vs) (fun ws => mk go_store (SArr ws)) | _ => bnd go_store (split_obj go_store k v) (fun w => mk go_store (SArr [w])) end)
                   (match y with SArr vs => bnd value_store (each value_store (split_obj value_store k) vs) (fun ws => mk value_store (SArr ws)) | _ => bnd value_store (split_obj value_store k j) (fun w => mk value_store (SArr [w])) end).
  Proof.
    intros h k x y B S v j V.
    assert (O : R (val_ok T) h (bnd go_store (split_obj go_store k v) (fun w => mk go_store (SArr [w]))) (bnd value_store (split_obj value_store k j) (fun w => mk value_store (SArr [w])))).
    { bnd_with (val_ok T); [now apply split_obj_ok|]. intros h1 w w' E W. apply rel_mk; [bel|]. repeat constructor. exact W. }
    destruct x, y; cbn in S; try contradiction; try exact O.
    bnd_with (vals_ok T); [apply lst; auto; intros; now apply split_obj_ok|]. intros h1 ws ws' E F. apply rel_mk; [bel|exact F].
  Qed.
  Lemma decode_ok : forall k h v j, below T h -> val_ok T h v j -> R (val_ok T) h (decode go_store k v) (decode value_store k j).
  Proof.
    assert (Hc : forall k h v j, k = KTypes \/ k = KContext -> below T h -> val_ok T h v j -> R (val_ok T) h (decode go_store k v) (decode value_store k j)).
    { intros k h v j Hk B V. assert (D : forall S, decode S k = decode S k) by reflexivity.
      assert (G : R (val_ok T) h (bnd go_store (lk go_store v) (fun x => match x with SStr s => mk go_store (SArr [v])
          | SArr vs => bnd go_store (each go_store (fun w => bnd go_store (lk go_store w) (fun y => match k, y with KTypes, SStr _ => ret go_store w | KTypes, _ => fail go_store "types" | _, _ => ret go_store w end)) vs) (fun ws => mk go_store (SArr ws))
          | _ => fail go_store "texts" end))
        (bnd value_store (lk value_store j) (fun x => match x with SStr s => mk value_store (SArr [j])
          | SArr vs => bnd value_store (each value_store (fun w => bnd value_store (lk value_store w) (fun y => match k, y with KTypes, SStr _ => ret value_store w | KTypes, _ => fail value_store "types" | _, _ => ret value_store w end)) vs) (fun ws => mk value_store (SArr ws))
          | _ => fail value_store "texts" end))).
      { bnd_with (shape_ok T); [now apply rel_lk|]. intros h1 x y E S. destruct x, y; cbn in S; try contradiction; subst; try apply rel_fail.
        - apply rel_mk; [bel|]. repeat constructor. now apply (val_ok_ext T h).
        - bnd_with (vals_ok T).
          + apply lst; [bel| |assumption]. intros h2 a b B2 V2. bnd_with (shape_ok T); [now apply rel_lk|]. intros h3 x y E3 S3.
            assert (W : val_ok T h3 a b) by now apply (val_ok_ext T h2).
            destruct k, x, y; cbn in S3; try contradiction; solve [apply rel_fail|now apply rel_ret].
          + intros h2 ws ws' E2 F. apply rel_mk; [bel|exact F]. }
      destruct Hk as [->| ->]; exact G. }
    intros k h v j B V. destruct k; try (apply Hc; [solve [auto]|assumption|assumption]).
    - cbn [decode]. bnd_with (@eqP string); [now apply text_of_ok|]. intros h1 s s' E <-. apply rel_mk; [bel|reflexivity].
    - cbn [decode]. bnd_with (shape_ok T); [now apply rel_lk|]. intros h1 x y E S. assert (V1 : val_ok T h1 v j) by now apply (val_ok_ext T h).
      destruct x, y; cbn in S; try contradiction; subst; try (apply split_obj_ok; [bel|assumption]).
      match goal with |- context [match ?t with "" => _ | _ => _ end] => destruct t end; [apply rel_fail|apply bare_ok; [bel|assumption]].
    - cbn [decode]. bnd_with (shape_ok T); [now apply rel_lk|]. intros h1 x y E S. assert (V1 : val_ok T h1 v j) by now apply (val_ok_ext T h).
      assert (O := objs_ok h1 (keys_of KSubjects) x y ltac:(bel) S v j V1).
      destruct x, y; cbn in S; try contradiction; try exact O.
      bnd_with (val_ok T); [apply bare_ok; [bel|assumption]|]. intros h2 w w' E2 W. apply rel_mk; [bel|]. repeat constructor. exact W.
    - cbn [decode]. bnd_with (shape_ok T); [now apply rel_lk|]. intros h1 x y E S. assert (V1 : val_ok T h1 v j) by now apply (val_ok_ext T h).
      assert (O := objs_ok h1 (keys_of KTyped) x y ltac:(bel) S v j V1). destruct x, y; cbn in S; try contradiction; exact O.
    - now apply rel_ret.
  Qed.
  Lemma contents_of_ok : forall t h ms js, below T h -> mems_ok T h ms js -> R (mems_ok T) h (contents_of go_store t ms) (contents_of value_store t js).
  Proof.
    intros t h ms js B F. unfold contents_of. bnd_with (fun h => Forall2 (mems_ok T h)).
    - apply (rel_each fspec fspec (gomap hval) (gomap json) T (fun h a b => a = b /\ below T h /\ mems_ok T h ms js) (mems_ok T)).
      + intros h2 h3 a b E1 (A & C & D). split; [assumption|]. split; [bel|]. now apply (mems_ok_ext T h2).
      + intros; eapply mems_ok_ext; eassumption.
      + intros h1 f f' E1 (<- & C & D). pose proof (mems_get T h1 ms js (f_member f) D) as G. change (val go_store) with hval. change (val value_store) with json.
        destruct (mget ms (f_member f)), (mget js (f_member f)); try contradiction; [|apply rel_ret; constructor].
        bnd_with (shape_ok T); [now apply rel_lk|]. intros h2 x y E2 S. assert (V2 : val_ok T h2 h0 j) by now apply (val_ok_ext T h1).
        assert (O : R (mems_ok T) h2 (bnd go_store (decode go_store (f_kind f) h0) (fun w => ret go_store [(f_name f, w)])) (bnd value_store (decode value_store (f_kind f) j) (fun w => ret value_store [(f_name f, w)]))).
        { bnd_with (val_ok T); [apply decode_ok; [bel|assumption]|]. intros h3 w w' E3 W. apply rel_ret. repeat constructor. exact W. }
        destruct x, y; cbn in S; try contradiction; try exact O. apply rel_ret. constructor.
      + clear - B F. induction t; constructor; auto.
    - intros h1 ls ls' E G. apply rel_ret. clear - G. induction G; cbn; [constructor|]. now apply mems_app.
  Qed.
  Lemma custom_ok : forall h flds flds', mems_ok T h flds flds' ->
    R (shape_ok T) h (match mget flds "CustomFields" with Some c => lk go_store c | None => ret go_store (SObj []) end) (match mget flds' "CustomFields" with Some c => lk value_store c | None => ret value_store (SObj []) end).
  Proof.
    intros h flds flds' F. pose proof (mems_get T h flds flds' "CustomFields" F) as G. change (val go_store) with hval. change (val value_store) with json.
    destruct (mget flds "CustomFields"), (mget flds' "CustomFields"); try contradiction; [now apply rel_lk|]. apply rel_ret. constructor.
  Qed.
  Lemma join_obj_ok : forall typed h v j, below T h -> val_ok T h v j -> R (val_ok T) h (join_obj go_store typed v) (join_obj value_store typed j).
  Proof.
    intros typed h v j B V. unfold join_obj. bnd_with (shape_ok T); [now apply rel_lk|]. intros h1 x y E S. destruct x, y; cbn in S; try contradiction; subst; try apply rel_fail.
    bnd_with (shape_ok T); [now apply custom_ok|]. intros h2 c c' E2 C.
    set (cu := match c with SObj ms => ms | _ => [] end). set (cu' := match c' with SObj ms => ms | _ => [] end).
    assert (Hc : mems_ok T h2 cu cu') by (subst cu cu'; destruct c, c'; cbn in C; try contradiction; try exact C; constructor).
    bnd_with (@eqP string); [apply text_at_ok; now apply (mems_ok_ext T h1)|]. intros h3 i i' E3 <-.
    bnd_with (@eqP string); [apply text_at_ok; apply (mems_ok_ext T h1); [bel|assumption]|]. intros h4 t t' E4 <-.
    bnd_with (val_ok T); [apply rel_mk; [bel|reflexivity]|]. intros h5 iv iv' E5 IV. bnd_with (val_ok T); [apply rel_mk; [bel|reflexivity]|]. intros h6 tv tv' E6 TV.
    assert (X : mems_ok T h6 (if (typed || negb (String.eqb i ""))%bool then mset cu "id" iv else cu) (if (typed || negb (String.eqb i ""))%bool then mset cu' "id" iv' else cu')).
    { assert (Hc6 : mems_ok T h6 cu cu') by (apply (mems_ok_ext T h2); [bel|assumption]).
      destruct (typed || negb (String.eqb i ""))%bool; [|assumption]. apply mems_set; [assumption|]. now apply (val_ok_ext T h5). }
    apply rel_mk; [bel|]. destruct typed; cbn [orb] in *; [|exact X]. cbn. now apply mems_set.
  Qed.
  Lemma issuer_out_ok : forall h v j, below T h -> val_ok T h v j -> R (val_ok T) h (issuer_out go_store v) (issuer_out value_store j).
  Proof.
    intros h v j B V. unfold issuer_out. bnd_with (shape_ok T); [now apply rel_lk|]. intros h1 x y E S. destruct x, y; cbn in S; try contradiction; subst; try apply rel_fail.
    bnd_with (shape_ok T); [now apply custom_ok|]. intros h2 c c' E2 C.
    assert (O : R (val_ok T) h2 (bnd go_store (text_at go_store m "id") (fun i => mk go_store (SStr i))) (bnd value_store (text_at value_store m0 "id") (fun i => mk value_store (SStr i)))).
    { bnd_with (@eqP string); [apply text_at_ok; now apply (mems_ok_ext T h1)|]. intros h3 i i' E3 <-. apply rel_mk; [bel|reflexivity]. }
    destruct c, c'; cbn in C; try contradiction; try exact O. inversion C as [|a b ms ms' Hab Hr]; subst; [exact O|]. apply join_obj_ok; [bel|]. apply (val_ok_ext T h); [bel|assumption].
  Qed.
  Lemma some_ok : forall h (m : st go_store hval) (m' : st value_store json), R (val_ok T) h m m' ->
    R (optP T) h (bnd go_store m (fun w => ret go_store (Some w))) (bnd value_store m' (fun w => ret value_store (Some w))).
  Proof. intros h m m' H. bnd_with (val_ok T); [exact H|]. intros h1 w w' E W. apply rel_ret. exact W. Qed.
  Lemma encode_ok : forall k h v j, below T h -> val_ok T h v j -> R (optP T) h (encode go_store k v) (encode value_store k j).
  Proof.
    intros k h v j B V. destruct k; cbn [encode].
    - bnd_with (@eqP string); [now apply text_of_ok|]. intros h1 s s' E <-. destruct (String.eqb s ""); [now apply rel_ret|]. apply some_ok. apply rel_mk; [bel|reflexivity].
    - bnd_with (shape_ok T); [now apply rel_lk|]. intros h1 x y E S. destruct x, y; cbn in S; try contradiction; subst; try apply rel_fail.
      inversion S as [|a b vs js Hab Hr]; subst; [now apply rel_ret|]. inversion Hr as [|a2 b2 vs2 js2 Hab2 Hr2]; subst; [apply rel_ret; exact Hab|]. apply some_ok. apply rel_mk; [bel|exact S].
    - bnd_with (shape_ok T); [now apply rel_lk|]. intros h1 x y E S. destruct x, y; cbn in S; try contradiction; subst; try apply rel_fail.
      inversion S as [|a b vs js Hab Hr]; subst; [now apply rel_ret|]. apply some_ok. apply rel_mk; [bel|exact S].
    - apply some_ok. now apply issuer_out_ok.
    - bnd_with (shape_ok T); [now apply rel_lk|]. intros h1 x y E S. destruct x, y; cbn in S; try contradiction; subst; try apply rel_fail.
      inversion S as [|a b vs js Hab Hr]; subst; [now apply rel_ret|]. inversion Hr as [|a2 b2 vs2 js2 Hab2 Hr2]; subst; [apply some_ok; apply join_obj_ok; [bel|exact Hab]|].
      bnd_with (vals_ok T); [apply lst; [bel| |exact S]; intros; now apply join_obj_ok|]. intros h2 ws ws' E2 F. apply some_ok. apply rel_mk; [bel|exact F].
    - bnd_with (shape_ok T); [now apply rel_lk|]. intros h1 x y E S. destruct x, y; cbn in S; try contradiction; subst; try apply rel_fail.
      inversion S as [|a b vs js Hab Hr]; subst; [now apply rel_ret|]. inversion Hr as [|a2 b2 vs2 js2 Hab2 Hr2]; subst; [apply some_ok; apply join_obj_ok; [bel|exact Hab]|].
      bnd_with (vals_ok T); [apply lst; [bel| |exact S]; intros; now apply join_obj_ok|]. intros h2 ws ws' E2 F. apply some_ok. apply rel_mk; [bel|exact F].
    - apply rel_ret. exact V.
  Qed.
  Lemma set_member_ok : forall h ms js k o o', mems_ok T h ms js -> optP T h o o' -> mems_ok T h (set_member go_store ms k o) (set_member value_store js k o').
  Proof. intros h ms js k o o' F O. destruct o, o'; cbn in O; try contradiction; cbn; [now apply mems_set|now apply mems_del]. Qed.
  Lemma document_of_ok : forall t h cont cont' ms js, below T h -> mems_ok T h cont cont' -> mems_ok T h ms js ->
    R (mems_ok T) h (document_of go_store t cont ms) (document_of value_store t cont' js).
  Proof.
    induction t as [|f t IH]; intros h cont cont' ms js B C F; cbn [document_of]; [now apply rel_ret|].
    pose proof (mems_get T h cont cont' (f_name f) C) as G. change (val go_store) with hval. change (val value_store) with json.
    destruct (mget cont (f_name f)), (mget cont' (f_name f)); try contradiction; [|now apply IH].
    bnd_with (optP T); [now apply encode_ok|]. intros h1 o o' E O. apply IH; [bel|now apply (mems_ok_ext T h)|]. apply set_member_ok; [now apply (mems_ok_ext T h)|assumption].
  Qed.
  Lemma is_v2_ok : forall h cont cont', mems_ok T h cont cont' -> R eqP h (is_v2 go_store cont) (is_v2 value_store cont').
  Proof.
    intros h cont cont' C. unfold is_v2. pose proof (mems_get T h cont cont' "Context" C) as G. change (val go_store) with hval. change (val value_store) with json.
    destruct (mget cont "Context"), (mget cont' "Context"); try contradiction; [|now apply rel_ret].
    bnd_with (shape_ok T); [now apply rel_lk|]. intros h1 x y E S. destruct x, y; cbn in S; try contradiction; subst; try now apply rel_ret.
    inversion S as [|a b vs js Hab Hr]; subst; [now apply rel_ret|]. bnd_with (shape_ok T); [now apply rel_lk|]. intros h2 x y E2 S2.
    destruct x, y; cbn in S2; try contradiction; subst; now apply rel_ret.
  Qed.
  Lemma proofs_out_ok : forall h ps ps', below T h -> vals_ok T h ps ps' -> R (val_ok T) h (proofs_out go_store ps) (proofs_out value_store ps').
  Proof.
    intros h ps ps' B F. inversion F as [|a b vs js Hab Hr]; subst; cbn [proofs_out]; [apply rel_mk; [assumption|exact I]|].
    inversion Hr; subst; [now apply rel_ret|]. apply rel_mk; [assumption|exact F].
  Qed.
  Lemma proofs_in_ok : forall h v j, below T h -> val_ok T h v j -> R (vals_ok T) h (proofs_in go_store v) (proofs_in value_store j).
  Proof.
    intros h v j B V. unfold proofs_in. bnd_with (shape_ok T); [now apply rel_lk|]. intros h1 x y E S. destruct x, y; cbn in S; try contradiction; subst; try apply rel_fail.
    - apply rel_ret. constructor.
    - apply lst; [bel| |assumption]. intros h2 a b B2 V2. bnd_with (shape_ok T); [now apply rel_lk|]. intros h3 x y E3 S3.
      destruct x, y; cbn in S3; try contradiction; try apply rel_fail. apply rel_ret. now apply (val_ok_ext T h2).
    - apply rel_ret. repeat constructor. now apply (val_ok_ext T h).
  Qed.
  Lemma proof_member_ok : forall h ms js, below T h -> mems_ok T h ms js ->
    R (vals_ok T) h (match mget ms "proof" with Some v => proofs_in go_store v | None => ret go_store [] end) (match mget js "proof" with Some v => proofs_in value_store v | None => ret value_store [] end).
  Proof.
    intros h ms js B F. pose proof (mems_get T h ms js "proof" F) as G. change (val go_store) with hval. change (val value_store) with json.
    destruct (mget ms "proof"), (mget js "proof"); try contradiction; [now apply proofs_in_ok|]. apply rel_ret. constructor.
  Qed.
End Rel.
