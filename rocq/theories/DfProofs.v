From Verif Require Import GoBase StatusModel PexModel JsModel JsSchemas JsProofs JsDesc DfModel DfSpec.

Lemma given_iff {A} (P Q : A -> Prop) o : (forall x, o = Some x -> P x <-> Q x) -> given P o <-> given Q o.
Proof. destruct o; cbn; [intros H; now apply H|tauto]. Qed.
Lemma pointers_iff {A} (P Q : A -> Prop) l : (forall x, In (Some x) l -> P x <-> Q x) -> pointers P l <-> pointers Q l.
Proof.
  intros H. unfold pointers. rewrite !Forall_forall. split; intros G o Ho; destruct (G o Ho) as (x & -> & Hx); exists x; (split; [reflexivity|]); now apply (H x Ho).
Qed.
Fixpoint allf {A} (P : A -> Prop) (l : list A) : Prop := match l with [] => True | x :: r => P x /\ allf P r end.
Lemma allf_forall {A} (P : A -> Prop) l : allf P l <-> Forall P l.
Proof. induction l as [|x l IH]; cbn; [split; constructor|]. rewrite IH. split; [intros []; constructor; auto|intros H; inversion H; auto]. Qed.
Lemma forallb_fields P l : forallb P (fields l) = true <-> allf (fun kv => given (fun x => P (fst kv, x) = true) (snd kv)) l.
Proof. induction l as [|[k [x|]] l IH]; cbn; [tauto| |]; rewrite ?andb_true_iff, IH; tauto. Qed.
Lemma mhas_fields l k : mhas (fields l) k = true <-> Exists (fun kv => k = fst kv /\ snd kv <> None) l.
Proof.
  induction l as [|[k' [x|]] l IH]; [cbn; rewrite Exists_nil; split; [discriminate|tauto]| |]; rewrite Exists_cons, <- IH; cbn.
  - unfold mhas. cbn. destruct (String.eqb_spec k k') as [->|N]; [|tauto].
    split; [intros _; left; split; [reflexivity|discriminate]|reflexivity].
  - tauto.
Qed.
Lemma fa_cons {A} (P : A -> Prop) x l : Forall P (x :: l) <-> P x /\ Forall P l.
Proof. split; [intros H; inversion H; auto|intros []; constructor; auto]. Qed.
Lemma fa_nil {A} (P : A -> Prop) : Forall P [] <-> True.
Proof. split; constructor. Qed.
Lemma ex_cons {A} (P : A -> Prop) x l : Exists P (x :: l) <-> P x \/ Exists P l.
Proof. apply Exists_cons. Qed.
Lemma om_str_none s : om_str s <> None <-> s <> "".
Proof. unfold om_str. destruct (String.eqb_spec s ""); split; congruence. Qed.
Lemma om_str_given P s : given P (om_str s) <-> (s <> "" -> P (JStr s)).
Proof. unfold om_str. destruct (String.eqb_spec s ""); cbn; intuition congruence. Qed.
Lemma om_int_given P z : given P (om_int z) <-> (z <> 0 -> P (jnum z)).
Proof. unfold om_int. destruct (Z.eqb_spec z 0); cbn; intuition congruence. Qed.
Lemma om_bool_given P b : given P (om_bool b) <-> (b = true -> P (JBool true)).
Proof. destruct b; cbn; intuition congruence. Qed.
Lemma om_list_none {A} (f : A -> json) l : om_list f l <> None <-> l <> [].
Proof. destruct l; cbn; split; congruence. Qed.
Lemma om_list_given {A} (f : A -> json) P l : given P (om_list f l) <-> (l <> [] -> P (JArr (map f l))).
Proof. destruct l; cbn; intuition congruence. Qed.
Lemma om_ptr_none {A} (f : A -> json) o : om_ptr f o <> None <-> o <> None.
Proof. destruct o; cbn; split; congruence. Qed.
Lemma om_ptr_given {A} (f : A -> json) P o : given P (om_ptr f o) <-> given (fun x => P (f x)) o.
Proof. destruct o; cbn; tauto. Qed.
Lemma om_map_given P m : given P (om_map m) <-> (m <> [] -> P (JObj m)).
Proof. destruct m; cbn; intuition congruence. Qed.

Section Ev.
  Variable re fmt : string -> string -> bool.
  Variable ext : string -> json -> bool.
  Variable root : json.
  Notation ev := (ev re fmt ext root).
  Lemma ev_false n d : ev n (JBool false) d = false.
  Proof. destruct n; reflexivity. Qed.
  Lemma ev_tstr n s : ev (S n) (JObj [("type", JStr "string")]) (JStr s) = true.
  Proof. reflexivity. Qed.
  Lemma ev_tstr_null n : ev (S n) (JObj [("type", JStr "string")]) JNull = false.
  Proof. reflexivity. Qed.
  Lemma ev_tbool n : ev (S n) (JObj [("type", JStr "boolean")]) (JBool true) = true.
  Proof. reflexivity. Qed.
  Lemma q_int_z z : q_int (inject_Z z) = true.
  Proof. unfold q_int. cbn. now rewrite Z.mod_1_r. Qed.
  Lemma ev_tint n z : ev (S n) (JObj [("type", JStr "integer")]) (jnum z) = true.
  Proof. rewrite ev_S. kws. unfold jnum. cbn. now rewrite q_int_z. Qed.
  Lemma ev_tmin n z b : ev (S n) (JObj [("type", JStr "integer"); ("minimum", jnum b)]) (jnum z) = true <-> b <= z.
  Proof.
    rewrite ev_S. kws. unfold jnum. replace (is_type "integer" (JNum (inject_Z z))) with true by (cbn; now rewrite q_int_z). rewrite ?andb_true_r, ?andb_true_l. rewrite Qle_bool_iff. unfold Qle. cbn. lia.
  Qed.
  Lemma ev_strs n l : ev (S (S n)) (JObj [("type", JStr "array"); ("items", JObj [("type", JStr "string")])]) (JArr (map JStr l)) = true.
  Proof. rewrite ev_S. kws. rewrite !andb_true_r. apply forallb_forall. intros x Hx. apply in_map_iff in Hx as (s & <- & _). apply ev_tstr. Qed.
  Lemma ev_strs1 n l : l <> [] -> ev (S (S n)) (JObj [("type", JStr "array"); ("minItems", jnum 1); ("items", JObj [("type", JStr "string")])]) (JArr (map JStr l)) = true.
  Proof.
    intros Hl. rewrite ev_S. kws. rewrite !andb_true_r. apply andb_true_iff. split.
    - apply forallb_forall. intros x Hx. apply in_map_iff in Hx as (s & <- & _). apply ev_tstr.
    - destruct l as [|x l]; [contradiction|]. cbn [map List.length]. unfold jnum. apply Qle_bool_iff. unfold Qle. cbn. lia.
  Qed.
  Lemma ev_enum2 n a b s : ev (S n) (JObj [("type", JStr "string"); ("enum", JArr [JStr a; JStr b])]) (JStr s) = true <-> s = a \/ s = b.
  Proof. rewrite ev_S. kws. rewrite !andb_true_r. cbn [jsame]. rewrite orb_false_r, orb_true_iff, !String.eqb_eq. intuition congruence. Qed.
  Lemma ev_ns n j : ev (S n) (JObj [("type", JArr [JStr "number"; JStr "string"])]) j = true <-> num_or_str j.
  Proof.
    rewrite ev_S. kws. unfold num_or_str. destruct j; cbn; rewrite ?andb_true_r; try (split; [discriminate|intros [(x & H)|(x & H)]; discriminate]).
    - split; eauto.
    - split; eauto.
  Qed.
End Ev.

(** ** Members, as the evaluator meets them *)
Fixpoint hasf (k : string) (l : list (string * option json)) : Prop :=
  match l with [] => False | (k', o) :: l' => if String.eqb k k' then o <> None \/ hasf k l' else hasf k l' end.
Lemma mhas_hasf l k : mhas (fields l) k = true <-> hasf k l.
Proof.
  rewrite mhas_fields. induction l as [|[k' o] l IH]; cbn; [apply Exists_nil|]. rewrite Exists_cons, IH. cbn.
  destruct (String.eqb_spec k k'); intuition congruence.
Qed.
Definition member_simple (v : json -> json -> bool) (props : gomap json) (add : option json) (k : string) (x : json) : bool :=
  match mget props k with Some s => v s x | None => match add with Some a => v a x | None => true end end.
Lemma forallb_simple re v props add l :
  forallb (fun kv => member_ok re v props [] add (fst kv) (snd kv)) (fields l) = true <->
  allf (fun kv => given (fun x => member_simple v props add (fst kv) x = true) (snd kv)) l.
Proof.
  rewrite forallb_fields, !allf_forall, !Forall_forall. unfold member_ok, member_simple. cbn [fst snd filter forallb].
  split; intros H [k o] Hx; specialize (H _ Hx); destruct o as [x|]; cbn in *; auto; destruct (mget props k); cbn in *;
    rewrite ?andb_true_r in *; auto; destruct add; auto.
Qed.
Section Given.
  Variable re fmt : string -> string -> bool.
  Variable ext : string -> json -> bool.
  Variable root : json.
  Notation ev := (ev re fmt ext root).
  Lemma g_true n o : given (fun x => ev (S n) (JBool true) x = true) o <-> True.
  Proof. destruct o; cbn; tauto. Qed.
  Lemma g_none n o : given (fun x => ev n (JBool false) x = true) o <-> o = None.
  Proof. destruct o; cbn; [rewrite ev_false; split; discriminate|tauto]. Qed.
  Lemma g_str n s : given (fun x => ev (S n) (JObj [("type", JStr "string")]) x = true) (om_str s) <-> True.
  Proof. rewrite om_str_given. split; auto. Qed.
  Lemma g_pstr n o : given (fun x => ev (S n) (JObj [("type", JStr "string")]) x = true) (om_ptr JStr o) <-> True.
  Proof. destruct o; cbn [om_ptr option_map given]; split; auto. Qed.
  Lemma g_bool n b : given (fun x => ev (S n) (JObj [("type", JStr "boolean")]) x = true) (om_bool b) <-> True.
  Proof. rewrite om_bool_given. split; auto. Qed.
  Lemma g_int n z : given (fun x => ev (S n) (JObj [("type", JStr "integer")]) x = true) (om_int z) <-> True.
  Proof. rewrite om_int_given. split; auto. intros _ _. apply ev_tint. Qed.
  Lemma g_min n b z : given (fun x => ev (S n) (JObj [("type", JStr "integer"); ("minimum", jnum b)]) x = true) (om_int z) <-> (z <> 0 -> b <= z).
  Proof. rewrite om_int_given. now rewrite ev_tmin. Qed.
  Lemma g_ns n o : given (fun x => ev (S n) (JObj [("type", JArr [JStr "number"; JStr "string"])]) x = true) o <-> given num_or_str o.
  Proof. apply given_iff. intros x _. apply ev_ns. Qed.
  Lemma g_enum n o : given (fun x => ev (S n) (JObj [("type", JStr "string"); ("enum", JArr [JStr "required"; JStr "preferred"])]) x = true) (om_ptr JStr o) <-> given preference o.
  Proof. rewrite om_ptr_given. apply given_iff. intros x _. apply ev_enum2. Qed.
  Lemma g_rule n s : given (fun x => ev (S n) (JObj [("type", JStr "string"); ("enum", JArr [JStr "all"; JStr "pick"])]) x = true) (om_str s) <-> (s <> "" -> s = "all" \/ s = "pick").
  Proof. rewrite om_str_given. now rewrite ev_enum2. Qed.
  Lemma g_strs n l : given (fun x => ev (S (S n)) (JObj [("type", JStr "array"); ("items", JObj [("type", JStr "string")])]) x = true) (om_list JStr l) <-> True.
  Proof. rewrite om_list_given. split; auto. intros _ _. apply ev_strs. Qed.
  Lemma g_strs1 n l : given (fun x => ev (S (S n)) (JObj [("type", JStr "array"); ("minItems", jnum 1); ("items", JObj [("type", JStr "string")])]) x = true) (om_list JStr l) <-> True.
  Proof. rewrite om_list_given. split; auto. intros _ H. now apply ev_strs1. Qed.
  Lemma g_nss n l : given (fun x => ev (S (S n)) (JObj [("type", JStr "array"); ("items", JObj [("type", JArr [JStr "number"; JStr "string"])])]) x = true) (om_list (fun j => j) l) <-> Forall num_or_str l.
  Proof.
    rewrite om_list_given, map_id. split.
    - intros H. assert (Hl : l = [] \/ l <> []) by (destruct l; [now left|right; discriminate]). destruct Hl as [->|Hl]; [constructor|]. specialize (H Hl). rewrite ev_S in H. revert H. kws. rewrite !andb_true_r. intros H.
      rewrite forallb_forall in H. apply Forall_forall. intros y Hy. apply (ev_ns re fmt ext root n). now apply H.
    - intros H _. rewrite ev_S. kws. rewrite !andb_true_r. apply forallb_forall. intros y Hy. rewrite Forall_forall in H. apply ev_ns. auto.
  Qed.
  Lemma g_not n m : given (fun x => ev (S (S n)) (JObj [("type", JStr "object"); ("minProperties", jnum 1)]) x = true) (om_map m) <-> True.
  Proof.
    rewrite om_map_given. split; auto. intros _ H. rewrite ev_S. kws. rewrite ?andb_true_r. apply andb_true_iff. split.
    - destruct m as [|x m]; [contradiction|]. cbn [List.length]. unfold jnum. apply Qle_bool_iff. unfold Qle. cbn. lia.
    - apply forallb_forall. intros x Hx. reflexivity.
  Qed.
  (** a list of pointers, by a schema for its elements *)
  Lemma ev_arr {A} (f : A -> json) (P : A -> Prop) n m l s : m = JObj s ->
    (forall x, In (Some x) l -> ev n m (f x) = true <-> P x) -> ev n m JNull = false ->
    ev (S n) (JObj [("type", JStr "array"); ("items", m)]) (JArr (map (ptr f) l)) = true <-> pointers P l.
  Proof.
    intros Em H Hn. subst m. rewrite ev_S. kws. rewrite !andb_true_r. rewrite forallb_forall. unfold pointers. rewrite Forall_forall. split.
    - intros G [x|] Ho.
      + exists x. split; [reflexivity|]. apply (H x Ho). apply (G (f x)). apply in_map_iff. now exists (Some x).
      + exfalso. assert (E : ev n (JObj s) JNull = true); [|congruence]. apply G. apply in_map_iff. now exists None.
    - intros G j Hj. apply in_map_iff in Hj as (o & <- & Ho). destruct (G o Ho) as (x & -> & Hx). cbn [ptr]. now apply H.
  Qed.
  Lemma g_arr {A} (f : A -> json) (P : A -> Prop) n s l :
    (forall x, In (Some x) l -> ev n (JObj s) (f x) = true <-> P x) -> ev n (JObj s) JNull = false ->
    given (fun x => ev (S n) (JObj [("type", JStr "array"); ("items", JObj s)]) x = true) (om_list (ptr f) l) <-> pointers P l.
  Proof.
    intros H Hn. rewrite om_list_given. destruct l as [|o l]; [split; [constructor|congruence]|].
    rewrite <- (ev_arr f P n (JObj s) (o :: l) s eq_refl); auto. split; auto. intros G. apply G. discriminate.
  Qed.
End Given.
