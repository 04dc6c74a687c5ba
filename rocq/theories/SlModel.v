(** Model of slices that share an array: verifiable/presentation.go:371-380 (WithCredentials), 469-473 (AddCredentials), 543-556 (Clone, used by CreateJWTVP and
    CreateCWTVP), credential_sdjwt.go:327-331, 422 (MakeSDJWTWithNonSelectivelyDisclosableClaims and makeSDJWT).
    An array is a list of texts (a credential is its name), a slice starts at the beginning of its array (slices with another start are not modelled), and a nil
    slice is a slice of an empty array.  How much Go reserves when an array is full is the parameter [grow]. *)
From Verif Require Import GoBase.

Record slice := { s_arr : nat; s_len : nat }.
Definition arrays := list (list string).
Fixpoint put {A} (l : list A) (i : nat) (a : A) : list A := match l, i with [], _ => [] | _ :: l', O => a :: l' | x :: l', Datatypes.S i' => x :: put l' i' a end.
Definition arr (m : arrays) (s : slice) : list string := match nth_error m (s_arr s) with Some a => a | None => [] end.
Definition read (m : arrays) (s : slice) : list string := firstn (s_len s) (arr m s).

Section Grow.
  Variable grow : nat -> nat.
  (** append of one element: in place when there is room, else in a new array *)
  Definition append1 (m : arrays) (s : slice) (x : string) : arrays * slice :=
    if Nat.ltb (s_len s) (List.length (arr m s)) then (put m (s_arr s) (put (arr m s) (s_len s) x), {| s_arr := s_arr s; s_len := Datatypes.S (s_len s) |})
    else ((m ++ [read m s ++ x :: repeat "" (grow (s_len s) - Datatypes.S (s_len s))])%list, {| s_arr := List.length m; s_len := Datatypes.S (s_len s) |}).
  (** WithCredentials and AddCredentials append one by one *)
  Fixpoint append_each (m : arrays) (s : slice) (l : list string) : arrays * slice :=
    match l with [] => (m, s) | x :: l' => let (m1, s1) := append1 m s x in append_each m1 s1 l' end.

  Inductive op :=
  | NewPresentation (l : list string)            (* NewPresentation with WithCredentials *)
  | AddCredentials (i : nat) (l : list string)
  | Clone (i : nat)                              (* Clone, CreateJWTVP, CreateCWTVP *)
  | NewClaims (l : list string)                  (* the caller's slice literal *)
  | Prefix (i n : nat)                           (* the caller's claims[:n] *)
  | MakeSDJWT (i : nat).                         (* MakeSDJWT with these claims as not selectively disclosable *)
  (** the slices of presentations and callers by number; the claims that were left disclosed by each MakeSDJWT *)
  Record world := { w_mem : arrays; w_vars : list slice; w_left : list (list string) }.
  Definition start : world := {| w_mem := []; w_vars := []; w_left := [] |}.
  Definition with_var (w : world) (i : nat) (f : slice -> world) : world := match nth_error (w_vars w) i with Some s => f s | None => w end.
  Definition step (w : world) (x : op) : world :=
    match x with
    | NewPresentation l => let (m, s) := append_each (w_mem w ++ [[]])%list {| s_arr := List.length (w_mem w); s_len := 0 |} l in
                           {| w_mem := m; w_vars := w_vars w ++ [s]; w_left := w_left w |}
    | AddCredentials i l => with_var w i (fun s => let (m, s') := append_each (w_mem w) s l in {| w_mem := m; w_vars := put (w_vars w) i s'; w_left := w_left w |})
    | Clone i => with_var w i (fun s => {| w_mem := w_mem w; w_vars := w_vars w ++ [s]; w_left := w_left w |})
    | NewClaims l => {| w_mem := w_mem w ++ [l]; w_vars := w_vars w ++ [{| s_arr := List.length (w_mem w); s_len := List.length l |}]; w_left := w_left w |}
    | Prefix i n => with_var w i (fun s => {| w_mem := w_mem w; w_vars := w_vars w ++ [{| s_arr := s_arr s; s_len := Nat.min n (s_len s) |}]; w_left := w_left w |})
    | MakeSDJWT i => with_var w i (fun s => let (m, s') := append1 (w_mem w) s "id" in {| w_mem := m; w_vars := w_vars w; w_left := w_left w ++ [read m s'] |})
    end%list.
  Definition run (l : list op) : world := fold_left step l start.
End Grow.
(** Go doubles small arrays *)
Definition doubling (n : nat) : nat := match n with O => 1 | _ => (2 * n)%nat end.
