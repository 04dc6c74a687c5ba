(** Specification for slices: the same history with lists instead of slices, and who may be added to. *)
From Verif Require Import GoBase SlModel.
Local Open Scope nat_scope.

Record lists := { l_vars : list (list string); l_left : list (list string) }.
Definition on (v : lists) (i : nat) (f : list string -> lists) : lists := match nth_error (l_vars v) i with Some l => f l | None => v end.
Definition spec_step (v : lists) (x : op) : lists :=
  match x with
  | NewPresentation l | NewClaims l => {| l_vars := l_vars v ++ [l]; l_left := l_left v |}
  | AddCredentials i l => on v i (fun old => {| l_vars := put (l_vars v) i (old ++ l); l_left := l_left v |})
  | Clone i => on v i (fun old => {| l_vars := l_vars v ++ [old]; l_left := l_left v |})
  | Prefix i n => on v i (fun old => {| l_vars := l_vars v ++ [firstn n old]; l_left := l_left v |})
  | MakeSDJWT i => on v i (fun old => {| l_vars := l_vars v; l_left := l_left v ++ [old ++ ["id"]] |})
  end%list.
Definition spec_run (l : list op) : lists := fold_left spec_step l {| l_vars := []; l_left := [] |}.
(** what Go's slices show *)
Definition shown (w : world) : lists := {| l_vars := map (read (w_mem w)) (w_vars w); l_left := w_left w |}.

(** [careful own k l]: with [k] slices so far, of which those in [own] may be added to, the calls [l] add to or make SD-JWTs with slices in [own] only; of a presentation and
    its clone only one stays in [own], and a prefix is never in it. *)
Inductive careful : list nat -> nat -> list op -> Prop :=
| cf_nil own k : careful own k []
| cf_new own k l cs : careful (k :: own) (Datatypes.S k) l -> careful own k (NewPresentation cs :: l)
| cf_claims own k l cs : careful (k :: own) (Datatypes.S k) l -> careful own k (NewClaims cs :: l)
| cf_add own k l i cs : In i own -> careful own k l -> careful own k (AddCredentials i cs :: l)
| cf_keep own k l i : i < k -> careful own (Datatypes.S k) l -> careful own k (Clone i :: l)
| cf_move own k l i : In i own -> careful (k :: remove Nat.eq_dec i own) (Datatypes.S k) l -> careful own k (Clone i :: l)
| cf_prefix own k l i n : i < k -> careful own (Datatypes.S k) l -> careful own k (Prefix i n :: l)
| cf_make own k l i : In i own -> careful own k l -> careful own k (MakeSDJWT i :: l).
