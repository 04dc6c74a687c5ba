(** Model of presexch/internal/requirementlogic/combinatorics.go.  Go ints that hold list indices and elements are
    natural numbers here (the callers never pass negative ones), and unbounded. *)
From Verif Require Import GoBase.
From Coq Require Import PeanoNat.
Open Scope nat_scope.

(** combinatorics.go:36-47 rangeInt *)
Definition range_int (s e : nat) : list nat := seq s (e - s).
(** comb[i] = v *)
Fixpoint upd (l : list nat) (i v : nat) : list nat :=
  match l, i with
  | [], _ => []
  | _ :: l', O => v :: l'
  | x :: l', S i' => x :: upd l' i' v
  end.
Definition at_ (l : list nat) (i : nat) : nat := nth i l 0.
(** for i := range k { comb[i] -= start } *)
Fixpoint shift (k start : nat) (l : list nat) : list nat :=
  match k, l with
  | S k', x :: l' => (x - start) :: shift k' start l'
  | _, _ => l
  end.
Record cstate := { cs_comb : list nat; cs_gaps : list nat (* stack, top first *); cs_shifting : bool }.
(** combinatorics.go:160-200 one round of the loop (the stack is not empty: [g] is its top) *)
Definition comb_step (m n : nat) (comb : list nat) (g : nat) (rest : list nat) (shifting : bool) : cstate :=
  let stack := if (n <=? at_ comb g + 2) || ((g + 1 <? m) && (at_ comb (g + 1) <=? at_ comb g + 2)) then rest else g :: rest in
  let stack := if (0 <? g) && (at_ comb (g - 1) + 1 =? at_ comb g) then (g - 1) :: stack else stack in
  let comb := upd comb g (at_ comb g + 1) in
  if g =? 0 then {| cs_comb := comb; cs_gaps := stack; cs_shifting := true |}
  else if shifting then {| cs_comb := shift g (at_ comb 0) comb; cs_gaps := stack; cs_shifting := false |}
  else {| cs_comb := comb; cs_gaps := stack; cs_shifting := shifting |}.
(** the loop, with fuel: [None] means it did not end within that many rounds.  The combinations appended to [out]. *)
Fixpoint comb_loop (fuel m n : nat) (s : cstate) : option (list (list nat)) :=
  match cs_gaps s with
  | [] => Some []
  | g :: rest =>
      match fuel with
      | O => None
      | S f => let s' := comb_step m n (cs_comb s) g rest (cs_shifting s) in
               option_map (cons (cs_comb s')) (comb_loop f m n s')
      end
  end.
(** combinatorics.go:143-203 getMCombinationsOfN *)
Definition combinations (fuel m n : nat) : option (list (list nat)) :=
  if n <? m then Some []
  else if m =? 0 then Some [[]]
  else if m =? n then Some [range_int 0 n]
  else let comb := range_int 0 m in
       option_map (cons comb) (comb_loop fuel m n {| cs_comb := comb; cs_gaps := [m - 1]; cs_shifting := false |}).
(** combinatorics.go:13-34 allCombinationsInLengthRange (the capacity computed from nChooseM has no effect on the
    result; for lists so long that it overflows make panics) *)
Fixpoint combs_from (fuel k count n : nat) : option (list (list nat)) :=
  match count with
  | O => Some []
  | S c => match combinations fuel k n, combs_from fuel (S k) c n with
           | Some a, Some b => Some (a ++ b)%list
           | _, _ => None
           end
  end.
Definition all_combinations (fuel min max n : nat) : option (list (list nat)) :=
  let max := if n <? max then n else max in
  combs_from fuel min (S max - min) n.
(** combinatorics.go:49-68 complement *)
Fixpoint compl_loop (l : list nat) (i count : nat) : list nat :=
  match count with
  | O => []
  | S c => match l with
           | x :: l' => if i =? x then compl_loop l' (S i) c else i :: compl_loop l (S i) c
           | [] => i :: compl_loop [] (S i) c
           end
  end.
Definition complement (l : list nat) (n : nat) : list nat := match l with [] => range_int 0 n | _ => compl_loop l 0 n end.
(** combinatorics.go:70-82 matchCombination *)
Fixpoint match_combination (a b : list nat) : bool :=
  match a, b with
  | [], [] => true
  | x :: a', y :: b' => (x =? y) && match_combination a' b'
  | _, _ => false
  end.
(** combinatorics.go:84-109 nChooseM on numbers small enough not to overflow *)
Fixpoint choose_loop (n i m : nat) (p : nat) : nat :=
  match m with O => p | S m' => choose_loop n (S i) m' (p * (n - i) / (i + 1)) end.
Definition n_choose_m (n m : nat) : nat :=
  if (n <? m) || (n =? 0) then 0 else
  if (m =? n) || (m =? 0) then 1 else
  if n - m <? m then choose_loop n 0 (n - m) 1 else choose_loop n 0 m 1.
