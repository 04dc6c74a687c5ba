(** Shared vocabulary of all models: Go results, Go maps, JSON values, string helpers.
    Nothing here models a function of vc-go; the definitions model the Go language/library
    facilities that the modelled functions use, and each says which. *)
From Coq Require Export List String Ascii ZArith NArith Lia Bool Permutation QArith.
Export ListNotations.
Open Scope list_scope.
Open Scope string_scope.
Open Scope Z_scope.

(** Go's [(T, error)] result; [Panic] is a run-time panic (nil dereference, index out of range,
    method call on a nil interface).  The error payload abbreviates the error text; it is exact
    where callers compare errors by identity. *)
Inductive res (A : Type) : Type :=
| Ok (a : A)
| Err (e : string)
| Panic.
Arguments Ok {A} a.
Arguments Err {A} e.
Arguments Panic {A}.

Definition bind {A B} (r : res A) (f : A -> res B) : res B :=
  match r with Ok a => f a | Err e => Err e | Panic => Panic end.
Notation "'let*' x := r 'in' k" := (bind r (fun x => k))
  (at level 200, x pattern, r at level 100, k at level 200, right associativity).
Definition rmap {A B} (f : A -> B) (r : res A) : res B :=
  match r with Ok a => Ok (f a) | Err e => Err e | Panic => Panic end.
Definition is_ok {A} (r : res A) : bool := match r with Ok _ => true | _ => false end.
Definition is_err {A} (r : res A) : bool := match r with Err _ => true | _ => false end.

(** [if cond { return err }] guards. *)
Definition guard (b : bool) (e : string) : res unit := if b then Ok tt else Err e.

(** Go maps with string keys: association lists.  The list order stands for the iteration order
    picked by the runtime; a well-formed map has unique keys ([NoDup (map fst m)]). *)
Definition gomap (V : Type) := list (string * V).

Fixpoint mget {V} (m : gomap V) (k : string) : option V :=
  match m with
  | [] => None
  | (k', v) :: m' => if String.eqb k k' then Some v else mget m' k
  end.
Definition mhas {V} (m : gomap V) (k : string) : bool :=
  match mget m k with Some _ => true | None => false end.
(** [m[k] = v]: overwrite in place, else insert (position irrelevant: order is arbitrary in Go). *)
Fixpoint mset {V} (m : gomap V) (k : string) (v : V) : gomap V :=
  match m with
  | [] => [(k, v)]
  | (k', v') :: m' => if String.eqb k k' then (k, v) :: m' else (k', v') :: mset m' k v
  end.
(** [delete(m, k)] *)
Fixpoint mdel {V} (m : gomap V) (k : string) : gomap V :=
  match m with
  | [] => []
  | (k', v') :: m' => if String.eqb k k' then mdel m' k else (k', v') :: mdel m' k
  end.
Definition mkeys {V} (m : gomap V) : list string := map fst m.

(** Values of [encoding/json] decoded into [interface{}].
    Numbers are rationals (float64 / json.Number are not distinguished unless stated). *)
Inductive json : Type :=
| JNull
| JBool (b : bool)
| JNum (q : Q)
| JStr (s : string)
| JArr (l : list json)
| JObj (m : list (string * json)).

Definition jnum (z : Z) : json := JNum (inject_Z z).

(** Induction principle through the nested lists. *)
Section JsonInd.
  Variable P : json -> Prop.
  Hypothesis Hnull : P JNull.
  Hypothesis Hbool : forall b, P (JBool b).
  Hypothesis Hnum : forall q, P (JNum q).
  Hypothesis Hstr : forall s, P (JStr s).
  Hypothesis Harr : forall l, Forall P l -> P (JArr l).
  Hypothesis Hobj : forall m, Forall (fun kv => P (snd kv)) m -> P (JObj m).
  Fixpoint json_ind' (j : json) : P j :=
    match j with
    | JNull => Hnull
    | JBool b => Hbool b
    | JNum q => Hnum q
    | JStr s => Hstr s
    | JArr l => Harr l ((fix go l : Forall P l :=
        match l with [] => Forall_nil _ | x :: xs => Forall_cons x (json_ind' x) (go xs) end) l)
    | JObj m => Hobj m ((fix go m : Forall (fun kv => P (snd kv)) m :=
        match m with [] => Forall_nil _ | x :: xs => Forall_cons x (json_ind' (snd x)) (go xs) end) m)
    end.
End JsonInd.

(** Type switches. *)
Definition as_str (j : json) : option string := match j with JStr s => Some s | _ => None end.
Definition as_obj (j : json) : option (gomap json) := match j with JObj m => Some m | _ => None end.
Definition as_arr (j : json) : option (list json) := match j with JArr l => Some l | _ => None end.

(** Well-formed JSON: object keys unique at every level. *)
Fixpoint wf_json (j : json) : Prop :=
  match j with
  | JArr l => (fix go l := match l with [] => True | x :: xs => wf_json x /\ go xs end) l
  | JObj m => NoDup (map fst m) /\
      (fix go (m : list (string * json)) := match m with [] => True | x :: xs => wf_json (snd x) /\ go xs end) m
  | _ => True
  end.

(** ** Strings (Go strings are byte sequences). *)

(** [strings.Split(s, sep)] for a one-byte separator: never returns the empty list. *)
Fixpoint split_on (sep : ascii) (s : string) : list string :=
  match s with
  | EmptyString => [EmptyString]
  | String c s' =>
      if Ascii.eqb c sep then EmptyString :: split_on sep s'
      else match split_on sep s' with
           | [] => [String c EmptyString]        (* impossible *)
           | p :: ps => String c p :: ps
           end
  end.

Fixpoint str_in (s : string) (l : list string) : bool :=
  match l with [] => false | x :: xs => String.eqb s x || str_in s xs end.

Definition char_in (c : ascii) (s : string) : Prop := In c (list_ascii_of_string s).

(** [strings.HasPrefix(s, p)] *)
Fixpoint has_prefix (p s : string) : bool :=
  match p, s with
  | EmptyString, _ => true
  | String a p', String b s' => Ascii.eqb a b && has_prefix p' s'
  | _, _ => false
  end.

(** [strings.ToUpper]/[ToLower] on ASCII (non-ASCII bytes left unchanged: simplification). *)
Definition upper_ascii (c : ascii) : ascii :=
  let n := N_of_ascii c in
  if (N.leb 97 n && N.leb n 122)%bool then ascii_of_N (n - 32) else c.
Definition lower_ascii (c : ascii) : ascii :=
  let n := N_of_ascii c in
  if (N.leb 65 n && N.leb n 90)%bool then ascii_of_N (n + 32) else c.
Fixpoint smap (f : ascii -> ascii) (s : string) : string :=
  match s with EmptyString => EmptyString | String c s' => String (f c) (smap f s') end.
Definition to_upper := smap upper_ascii.
Definition to_lower := smap lower_ascii.
(** [strings.EqualFold] on ASCII (Unicode folding not modelled). *)
Definition equal_fold (a b : string) : bool := String.eqb (to_lower a) (to_lower b).

(** ** Facts used everywhere. *)
Lemma str_in_In s l : str_in s l = true <-> In s l.
Proof.
  induction l as [|x xs IH]; simpl; [split; [discriminate|tauto]|].
  rewrite orb_true_iff, String.eqb_eq, IH. intuition congruence.
Qed.
Lemma str_in_nIn s l : str_in s l = false <-> ~ In s l.
Proof. rewrite <- str_in_In. destruct (str_in s l); intuition congruence. Qed.

Lemma mget_In {V} (m : gomap V) k v : mget m k = Some v -> In (k, v) m.
Proof.
  induction m as [|[k' v'] m IH]; simpl; [discriminate|].
  destruct (String.eqb_spec k k'); [intros [= ->]; subst; auto|auto].
Qed.
Lemma mget_None {V} (m : gomap V) k : mget m k = None <-> ~ In k (map fst m).
Proof.
  induction m as [|[k' v'] m IH]; simpl; [tauto|].
  destruct (String.eqb_spec k k'); [subst; split; [discriminate|tauto]|].
  rewrite IH. intuition congruence.
Qed.
Lemma mget_In_nodup {V} (m : gomap V) k v :
  NoDup (map fst m) -> In (k, v) m -> mget m k = Some v.
Proof.
  induction m as [|[k' v'] m IH]; simpl; [tauto|].
  intros Hnd [[= -> ->]|Hin].
  - now rewrite String.eqb_refl.
  - inversion Hnd as [|? ? Hni Hnd']; subst.
    destruct (String.eqb_spec k k') as [->|]; [|auto].
    exfalso; apply Hni. change k' with (fst (k', v)). now apply in_map.
Qed.
Lemma mget_Some_In_iff {V} (m : gomap V) k v :
  NoDup (map fst m) -> (mget m k = Some v <-> In (k, v) m).
Proof. intros H; split; [apply mget_In | now apply mget_In_nodup]. Qed.
Lemma mget_perm {V} (m m' : gomap V) k :
  NoDup (map fst m) -> Permutation m m' -> mget m k = mget m' k.
Proof.
  intros Hnd Hp.
  assert (Hnd' : NoDup (map fst m')).
  { eapply Permutation_NoDup; [apply Permutation_map; eassumption|assumption]. }
  destruct (mget m k) as [v|] eqn:E.
  - symmetry. apply mget_In_nodup; [assumption|].
    eapply Permutation_in; [eassumption|]. now apply mget_In.
  - symmetry. apply mget_None. apply mget_None in E. intros Hin; apply E.
    eapply Permutation_in; [apply Permutation_sym, Permutation_map; eassumption|exact Hin].
Qed.
Lemma mget_mset {V} (m : gomap V) k k' v :
  mget (mset m k v) k' = if String.eqb k' k then Some v else mget m k'.
Proof.
  induction m as [|[k0 v0] m IH]; simpl.
  - destruct (String.eqb_spec k' k); reflexivity.
  - destruct (String.eqb_spec k k0) as [->|Hne]; simpl.
    + destruct (String.eqb_spec k' k0); reflexivity.
    + destruct (String.eqb_spec k' k0) as [->|]; simpl.
      * destruct (String.eqb_spec k0 k); [congruence|reflexivity].
      * exact IH.
Qed.
Lemma mget_mdel {V} (m : gomap V) k k' :
  mget (mdel m k) k' = if String.eqb k' k then None else mget m k'.
Proof.
  induction m as [|[k0 v0] m IH]; simpl.
  - destruct (String.eqb_spec k' k); reflexivity.
  - destruct (String.eqb_spec k k0) as [->|Hne]; simpl.
    + rewrite IH. destruct (String.eqb_spec k' k0); reflexivity.
    + destruct (String.eqb_spec k' k0) as [->|]; simpl.
      * destruct (String.eqb_spec k0 k); [congruence|reflexivity].
      * exact IH.
Qed.
Lemma mset_keys {V} (m : gomap V) k v x :
  In x (map fst (mset m k v)) <-> x = k \/ In x (map fst m).
Proof.
  induction m as [|[k0 v0] m IH]; simpl; [intuition|].
  destruct (String.eqb_spec k k0) as [->|Hne]; simpl; [intuition|].
  rewrite IH. intuition.
Qed.
Lemma mset_nodup {V} (m : gomap V) k v :
  NoDup (map fst m) -> NoDup (map fst (mset m k v)).
Proof.
  induction m as [|[k0 v0] m IH]; simpl; intros Hnd.
  - repeat constructor; simpl; tauto.
  - inversion Hnd as [|? ? Hni Hnd']; subst.
    destruct (String.eqb_spec k k0) as [->|Hne]; simpl; [constructor; assumption|].
    constructor; [|auto]. rewrite mset_keys. intuition.
Qed.
Lemma mdel_keys {V} (m : gomap V) k x :
  In x (map fst (mdel m k)) <-> x <> k /\ In x (map fst m).
Proof.
  induction m as [|[k0 v0] m IH]; simpl; [tauto|].
  destruct (String.eqb_spec k k0) as [->|Hne]; simpl; rewrite IH; intuition congruence.
Qed.
Lemma mdel_nodup {V} (m : gomap V) k :
  NoDup (map fst m) -> NoDup (map fst (mdel m k)).
Proof.
  induction m as [|[k0 v0] m IH]; simpl; intros Hnd; [constructor|].
  inversion Hnd as [|? ? Hni Hnd']; subst.
  destruct (String.eqb_spec k k0); simpl; [auto|].
  constructor; [rewrite mdel_keys; tauto|auto].
Qed.

Lemma bind_ok {A B} (r : res A) (f : A -> res B) b :
  bind r f = Ok b -> exists a, r = Ok a /\ f a = Ok b.
Proof. destruct r; simpl; intros H; try discriminate. eauto. Qed.

Lemma split_on_nonempty sep s : split_on sep s <> [].
Proof.
  destruct s as [|c s]; simpl; [discriminate|].
  destruct (Ascii.eqb c sep); [discriminate|]. destruct (split_on sep s); discriminate.
Qed.
