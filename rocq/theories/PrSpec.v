(** What the theorems about presentations in memory are stated with.  The conditions look only at the machine without sharing (PrModel.value_store). *)
From Coq Require Import String List Arith Bool.
From Verif Require Import GoBase PrModel.
Import ListNotations.
Local Open Scope list_scope.
Local Open Scope nat_scope.

(** ** The conditions, about the values only *)
(** no list that comes from the same list by copying has more elements *)
Definition longest (s : list (nat * list string)) (v : nat) : bool :=
  forallb (fun e => negb (fst e =? fst (at_ [] s v)) || (List.length (snd e) <=? List.length (snd (at_ [] s v)))) s.
(** nothing comes from the same list or map by copying *)
Definition alone {A} (z : A) (s : list (nat * A)) (v : nat) : bool := List.length (filter (fun e => fst e =? fst (at_ z s v)) s) <=? 1.
Definition fine (w : world value_store) (o : call) : bool :=
  match o with
  | AddP i _ => match nth_error (w_pres w) i with Some p => longest (w_l w) (p_creds p) | None => true end
  | AppendP i f _ => match nth_error (w_pres w) i with Some p => longest (w_l w) (list_of p f) | None => true end
  | PushH h _ => match nth_error (w_lists w) h with Some v => longest (w_l w) v | None => true end
  | WriteH h _ _ => match nth_error (w_lists w) h with Some v => alone [] (w_l w) v | None => true end
  | PutField i _ _ => match nth_error (w_pres w) i with Some p => match p_fields p with Some m => alone no_fields (w_m w) m | None => true end | None => true end
  | _ => true
  end.
Fixpoint fair_from (w : world value_store) (l : list call) : bool := match l with [] => true | o :: r => fine w o && fair_from (step w o) r end.
Definition fair (l : list call) : bool := fair_from value_start l.

(** the presentation a call changes *)
Definition names (q : nat) (o : call) : bool :=
  match o with AddP p _ | AppendP p _ _ | SetID p _ | SetHolder p _ | ProofP p _ | PutField p _ _ => p =? q | _ => false end.
(** what is seen of presentation [q] after [l] is still seen after the further calls [l2] *)
Definition kept grow (l l2 : list call) (q : nat) : Prop := see (go_run grow (l ++ l2)) q = see (go_run grow l) q.
(** a presentation with another token *)
Definition with_jwt (s : seen) (token : string) : seen :=
  {| v_creds := v_creds s; v_context := v_context s; v_type := v_type s; v_fields := v_fields s; v_id := v_id s; v_holder := v_holder s; v_jwt := token; v_proofs := v_proofs s |}.
(** the capacity the Go runtime chooses for a full list of pointers that has fewer than 256 elements *)
Definition go_grow (c : nat) : nat := if c =? 0 then 1 else 2 * c.
