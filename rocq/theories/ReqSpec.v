(** Specification vocabulary for submission requirements (C08-C11). *)
From Verif Require Import GoBase.

(** The count/min/max window; zero means "not given". *)
Definition window (count mn mx n : Z) : Prop :=
  (count > 0 -> n = count) /\ (mn > 0 -> mn <= n) /\ (mx > 0 -> n <= mx).

(** A nested requirement: a node counts satisfied children, a leaf counts listed descriptors. *)
Inductive rlogic : Type := RL (ids : list string) (nested : list rlogic) (count mn mx : Z).

(** Number of distinct elements of a list having a property. *)
Definition distinct_count {A} (P : A -> Prop) (l : list A) (n : nat) : Prop :=
  exists l', NoDup l' /\ (forall x, In x l' <-> In x l /\ P x) /\ List.length l' = n.

(** [verdict S r b]: [b] tells whether the set [S] meets [r], as Presentation Exchange prescribes. *)
Inductive verdict (S : string -> Prop) : rlogic -> bool -> Prop :=
| v_leaf ids c mn mx n b :
    distinct_count S ids n -> (b = true <-> window c mn mx (Z.of_nat n)) ->
    verdict S (RL ids [] c mn mx) b
| v_node ids nested c mn mx n b :
    nested <> [] -> verdicts S nested n -> (b = true <-> window c mn mx (Z.of_nat n)) ->
    verdict S (RL ids nested c mn mx) b
(** [verdicts S rs n]: exactly [n] members of [rs] are met. *)
with verdicts (S : string -> Prop) : list rlogic -> nat -> Prop :=
| vs_nil : verdicts S [] 0
| vs_yes r rs n : verdict S r true -> verdicts S rs n -> verdicts S (r :: rs) (1 + n)
| vs_no r rs n : verdict S r false -> verdicts S rs n -> verdicts S (r :: rs) n.

Definition same_set {A} (a b : list A) : Prop := forall x, In x a <-> In x b.

(** ** Presentation Exchange submission requirements, read directly. *)
Record idesc := { id_id : string; id_group : list string }.
Inductive sreq : Type :=
  SR (all : bool) (count mn mx : Z) (from : string) (nested : list sreq).

(** Number of list members satisfying a decidable test. *)
Definition count_if {A} (f : A -> bool) (l : list A) : Z := Z.of_nat (List.length (filter f l)).
Definition windowb (count mn mx n : Z) : bool :=
  ((negb (0 <? count) || (n =? count)) && (negb (0 <? mn) || (mn <=? n)) && (negb (0 <? mx) || (n <=? mx)))%bool.

(** [all]: every member of the group (every nested requirement) is met;
    [pick]: the number of met members lies in the window. *)
Fixpoint sreq_met (descs : list idesc) (S : string -> bool) (r : sreq) {struct r} : bool :=
  match r with
  | SR all count mn mx from nested =>
      let group := filter (fun d => str_in from (id_group d)) descs in
      if String.eqb from "" then
        if all then forallb (sreq_met descs S) nested
        else windowb count mn mx (count_if (sreq_met descs S) nested)
      else
        if all then forallb (fun d => S (id_id d)) group
        else windowb count mn mx (count_if (fun d => S (id_id d)) group)
  end.
(** The whole definition: all submission requirements, or all descriptors if there are none. *)
Definition definition_met (descs : list idesc) (reqs : list sreq) (S : string -> bool) : bool :=
  match reqs with
  | [] => forallb (fun d => S (id_id d)) descs
  | _ => forallb (sreq_met descs S) reqs
  end.

(** [all] carries no bounds (Presentation Exchange defines count/min/max for [pick] only). *)
Fixpoint plain_all (r : sreq) : bool :=
  match r with
  | SR all count mn mx from nested =>
      ((negb all || ((mn <=? 0) && (mx <=? 0))) && forallb plain_all nested)%bool
  end.
(** Every [from] group that is referenced has a member. *)
Fixpoint groups_exist (descs : list idesc) (r : sreq) : bool :=
  match r with
  | SR _ _ _ _ from nested =>
      if String.eqb from "" then forallb (groups_exist descs) nested
      else existsb (fun d => str_in from (id_group d)) descs
  end.

(** A descriptor is referenced by a requirement through one of its groups. *)
Fixpoint sreq_uses (r : sreq) (d : idesc) : bool :=
  match r with
  | SR _ _ _ _ from nested =>
      if String.eqb from "" then existsb (fun n => sreq_uses n d) nested else str_in from (id_group d)
  end.
Definition definition_uses (reqs : list sreq) (d : idesc) : bool :=
  match reqs with [] => true | _ => existsb (fun r => sreq_uses r d) reqs end.

(** ** Submissions.  [eval d] is the outcome of matching descriptor [d] against the wallet. *)
Definition has_match {cred} (eval : idesc -> res (string * list cred)) (d : idesc) : Prop :=
  exists f cs, eval d = Ok (f, cs) /\ cs <> [].
(** A candidate submission: a non-empty set of referenced, matched descriptors meeting the requirements. *)
Definition submission_of {cred} (eval : idesc -> res (string * list cred)) descs reqs (T : list string) : Prop :=
  T <> [] /\
  (forall id, In id T -> exists d, In d descs /\ id_id d = id /\ definition_uses reqs d = true /\ has_match eval d) /\
  definition_met descs reqs (fun x => str_in x T) = true.

