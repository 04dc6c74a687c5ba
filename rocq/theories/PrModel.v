(** Presentations as objects in memory: what Clone (and CreateJWTVP, CreateCWTVP, which use it) shares with the presentation it was made from, and
    what appending to a list or writing a map then does (verifiable/presentation.go 338-390, 463-474, 542-556, 829-880; presentation_jwt.go 95-118;
    presentation_cwt.go 43-79; presentation_ldp.go 14-29).
    One machine runs the calls of the API over a [store] of list variables and map variables.  [go_store] is Go's memory: a list variable is a slice
    header (array, length), appending to it writes the next cell of the array when there is one and moves to a larger array otherwise, copying a
    header copies no cell; a map variable is a reference.  [value_store] has no sharing: every copy is a copy of the contents.  It also remembers which
    variables come from one another by copying (their family), which only the conditions of the theorems look at.
    Simplified: a credential is a pointer, and is named by a text (what happens inside credentials is AlModel's); the proofs are a value because the
    library only replaces the whole list; CustomContext behaves as Context and is left out; CWT behaves as JWT and is left out; an index out of
    range and a write to a nil map panic in Go, here they do nothing. *)
From Coq Require Import String List Arith Bool.
From Verif Require Import GoBase.
Import ListNotations.
Local Open Scope list_scope.
Local Open Scope nat_scope.

Record store := {
  lst : Type; l_make : lst -> list string -> lst; l_share : lst -> nat -> lst; l_push : lst -> nat -> string -> lst;
  l_write : lst -> nat -> nat -> string -> lst; l_read : lst -> nat -> list string; l_count : lst -> nat;
  mst : Type; m_make : mst -> gomap json -> mst; m_share : mst -> nat -> mst; m_put : mst -> nat -> string -> json -> mst;
  m_read : mst -> nat -> gomap json; m_count : mst -> nat }.

Fixpoint put_nth {A} (l : list A) (n : nat) (x : A) : list A :=
  match l, n with [], _ => [] | _ :: r, 0 => x :: r | y :: r, Datatypes.S k => y :: put_nth r k x end.

(** ** Go's memory *)
(** a slice header; no array: nil *)
Record slice := { s_arr : option nat; s_len : nat }.
Definition nil_slice : slice := {| s_arr := None; s_len := 0 |}.
(** the arrays, each with as many cells as its capacity, and the list variables *)
Record gomem := { g_arrs : list (list string); g_vars : list slice }.
Definition slice_of (g : gomem) (v : nat) : slice := match nth_error (g_vars g) v with Some s => s | None => nil_slice end.
Definition cells (g : gomem) (s : slice) : list string := match s_arr s with Some a => match nth_error (g_arrs g) a with Some c => c | None => [] end | None => [] end.
Definition g_read (g : gomem) (v : nat) : list string := firstn (s_len (slice_of g v)) (cells g (slice_of g v)).
(** []T{...} *)
Definition g_make (g : gomem) (xs : list string) : gomem :=
  match xs with
  | [] => {| g_arrs := g_arrs g; g_vars := g_vars g ++ [nil_slice] |}
  | _ => {| g_arrs := g_arrs g ++ [xs]; g_vars := g_vars g ++ [{| s_arr := Some (List.length (g_arrs g)); s_len := List.length xs |}] |}
  end.
Definition g_share (g : gomem) (v : nat) : gomem := {| g_arrs := g_arrs g; g_vars := g_vars g ++ [slice_of g v] |}.
(** v = append(v, x); [grow c] is the capacity append chooses when an array of capacity c is full *)
Definition g_push (grow : nat -> nat) (g : gomem) (v : nat) (x : string) : gomem :=
  let s := slice_of g v in
  match s_arr s with
  | Some a => if s_len s <? List.length (cells g s)
              then {| g_arrs := put_nth (g_arrs g) a (put_nth (cells g s) (s_len s) x);
                      g_vars := put_nth (g_vars g) v {| s_arr := Some a; s_len := Datatypes.S (s_len s) |} |}
              else {| g_arrs := g_arrs g ++ [cells g s ++ [x] ++ repeat ""%string (grow (List.length (cells g s)) - List.length (cells g s) - 1)];
                      g_vars := put_nth (g_vars g) v {| s_arr := Some (List.length (g_arrs g)); s_len := Datatypes.S (s_len s) |} |}
  | None => {| g_arrs := g_arrs g ++ [[x] ++ repeat ""%string (grow 0 - 1)];
               g_vars := put_nth (g_vars g) v {| s_arr := Some (List.length (g_arrs g)); s_len := 1 |} |}
  end.
(** v[k] = x *)
Definition g_write (g : gomem) (v k : nat) (x : string) : gomem :=
  let s := slice_of g v in
  match s_arr s with
  | Some a => if k <? s_len s then {| g_arrs := put_nth (g_arrs g) a (put_nth (cells g s) k x); g_vars := g_vars g |} else g
  | None => g
  end.
(** maps, and the map variables, each a reference *)
Record gomaps := { g_maps : list (gomap json); g_refs : list nat }.
Definition gm_get (g : gomaps) (r : nat) : gomap json := match nth_error (g_maps g) r with Some m => m | None => [] end.
Definition gm_ref (g : gomaps) (v : nat) : nat := match nth_error (g_refs g) v with Some r => r | None => List.length (g_maps g) end.
Definition go_store (grow : nat -> nat) : store :=
  {| lst := gomem; l_make := g_make; l_share := g_share; l_push := g_push grow; l_write := g_write; l_read := g_read; l_count := fun g => List.length (g_vars g);
     mst := gomaps;
     m_make := fun g m => {| g_maps := g_maps g ++ [m]; g_refs := g_refs g ++ [List.length (g_maps g)] |};
     m_share := fun g v => {| g_maps := g_maps g; g_refs := g_refs g ++ [gm_ref g v] |};
     m_put := fun g v k x => {| g_maps := put_nth (g_maps g) (gm_ref g v) (mset (gm_get g (gm_ref g v)) k x); g_refs := g_refs g |};
     m_read := fun g v => gm_get g (gm_ref g v); m_count := fun g => List.length (g_refs g) |}.

(** ** No sharing *)
Definition at_ {A} (z : A) (s : list (nat * A)) (v : nat) : nat * A := match nth_error s v with Some e => e | None => (List.length s, z) end.
Definition no_fields : gomap json := [].
Definition value_store : store :=
  {| lst := list (nat * list string); l_make := fun s xs => s ++ [(List.length s, xs)]; l_share := fun s v => s ++ [at_ [] s v];
     l_push := fun s v x => put_nth s v (fst (at_ [] s v), snd (at_ [] s v) ++ [x]);
     l_write := fun s v k x => put_nth s v (fst (at_ [] s v), put_nth (snd (at_ [] s v)) k x);
     l_read := fun s v => snd (at_ [] s v); l_count := @List.length _;
     mst := list (nat * gomap json); m_make := fun s m => s ++ [(List.length s, m)]; m_share := fun s v => s ++ [at_ no_fields s v];
     m_put := fun s v k x => put_nth s v (fst (at_ no_fields s v), mset (snd (at_ no_fields s v)) k x);
     m_read := fun s v => snd (at_ no_fields s v); m_count := @List.length _ |}.

(** ** The API *)
Inductive lfield := FCreds | FContext | FType.
(** the exported fields of a Presentation: its lists are list variables, its CustomFields nil or a map variable *)
Record pres := { p_creds : nat; p_context : nat; p_type : nat; p_fields : option nat; p_id : string; p_holder : string; p_jwt : string; p_proofs : list json }.
Definition list_of (p : pres) (f : lfield) : nat := match f with FCreds => p_creds p | FContext => p_context p | FType => p_type p end.
Record world (W : store) := { w_l : lst W; w_m : mst W; w_pres : list pres; w_lists : list nat }.
Arguments w_l {W}. Arguments w_m {W}. Arguments w_pres {W}. Arguments w_lists {W}. Arguments Build_world {W}.

Inductive call :=
  | ListOf (xs : list string)                                                 (* a list made by the caller *)
  | NewP (base : string) (h : nat)                                            (* NewPresentation(WithBaseContext(base), WithCredentials(list...)) *)
  | ParsedP (context types creds : list string) (id holder : string) (proofs : list json) (fields : gomap json) (* what ParsePresentation returned *)
  | AddP (p h : nat)                                                          (* p.AddCredentials(list...) *)
  | AppendP (p : nat) (f : lfield) (x : string)                               (* p.Context = append(p.Context, x); for credentials AddCredentials(x) *)
  | TakeP (p : nat) (f : lfield)                                              (* list := p.Credentials(), list := p.Context *)
  | WriteH (h k : nat) (x : string)                                           (* list[k] = x *)
  | PushH (h : nat) (x : string)                                              (* list = append(list, x) *)
  | CloneP (p : nat)                                                          (* p.Clone() *)
  | SignP (p : nat) (token : string)                                          (* p.CreateJWTVP(...), which returned this token *)
  | SetID (p : nat) (x : string) | SetHolder (p : nat) (x : string)           (* p.ID = x *)
  | ProofP (p : nat) (proofs : list json)                                     (* p.AddLinkedDataProof(...): the new list of proofs *)
  | PutField (p : nat) (k : string) (v : json).                               (* p.CustomFields[k] = v *)

Section Machine.
Variable W : store.
Notation world := (world W).
Definition pushes (s : lst W) (v : nat) (xs : list string) : lst W := fold_left (fun s x => l_push W s v x) xs s.
Definition handle (w : world) (h : nat) : nat := nth h (w_lists w) (l_count W (w_l w)).
Definition with_lists (w : world) (s : lst W) : world := {| w_l := s; w_m := w_m w; w_pres := w_pres w; w_lists := w_lists w |}.
(** 542-556 *)
Definition clone (w : world) (p : pres) (jwt : string) : world :=
  let n := l_count W (w_l w) in
  {| w_l := l_share W (l_share W (l_share W (w_l w) (p_creds p)) (p_context p)) (p_type p);
     w_m := match p_fields p with Some v => m_share W (w_m w) v | None => w_m w end;
     w_pres := w_pres w ++ [{| p_creds := n; p_context := n + 1; p_type := n + 2;
                              p_fields := match p_fields p with Some _ => Some (m_count W (w_m w)) | None => None end;
                              p_id := p_id p; p_holder := p_holder p; p_jwt := jwt; p_proofs := p_proofs p |}];
     w_lists := w_lists w |}.
Definition set_pres (w : world) (i : nat) (p : pres) : world := {| w_l := w_l w; w_m := w_m w; w_pres := put_nth (w_pres w) i p; w_lists := w_lists w |}.
Definition step (w : world) (o : call) : world :=
  match o with
  | ListOf xs => {| w_l := l_make W (w_l w) xs; w_m := w_m w; w_pres := w_pres w; w_lists := w_lists w ++ [l_count W (w_l w)] |}
  (* 354-390: the literal's lists, then the credentials one by one *)
  | NewP base h =>
      let n := l_count W (w_l w) in
      let s := l_make W (l_make W (l_make W (w_l w) []) [base]) ["VerifiablePresentation"%string] in
      {| w_l := pushes s n (l_read W (w_l w) (handle w h)); w_m := w_m w;
         w_pres := w_pres w ++ [{| p_creds := n; p_context := n + 1; p_type := n + 2; p_fields := None; p_id := ""; p_holder := ""; p_jwt := ""; p_proofs := [] |}];
         w_lists := w_lists w |}
  (* 829-880, common.go 398-411: each list is built by appending one element after the other *)
  | ParsedP context types creds id holder proofs fields =>
      let n := l_count W (w_l w) in
      let s := l_make W (l_make W (l_make W (w_l w) []) []) [] in
      {| w_l := pushes (pushes (pushes s n creds) (n + 1) context) (n + 2) types; w_m := m_make W (w_m w) fields;
         w_pres := w_pres w ++ [{| p_creds := n; p_context := n + 1; p_type := n + 2; p_fields := Some (m_count W (w_m w)); p_id := id; p_holder := holder; p_jwt := ""; p_proofs := proofs |}];
         w_lists := w_lists w |}
  (* 468-474 *)
  | AddP i h => match nth_error (w_pres w) i with Some p => with_lists w (pushes (w_l w) (p_creds p) (l_read W (w_l w) (handle w h))) | None => w end
  | AppendP i f x => match nth_error (w_pres w) i with Some p => with_lists w (l_push W (w_l w) (list_of p f) x) | None => w end
  (* 463-466 *)
  | TakeP i f => match nth_error (w_pres w) i with
                 | Some p => {| w_l := l_share W (w_l w) (list_of p f); w_m := w_m w; w_pres := w_pres w; w_lists := w_lists w ++ [l_count W (w_l w)] |}
                 | None => w
                 end
  | WriteH h k x => match nth_error (w_lists w) h with Some v => with_lists w (l_write W (w_l w) v k x) | None => w end
  | PushH h x => match nth_error (w_lists w) h with Some v => with_lists w (l_push W (w_l w) v x) | None => w end
  | CloneP i => match nth_error (w_pres w) i with Some p => clone w p (p_jwt p) | None => w end
  (* presentation_jwt.go 113-117 *)
  | SignP i token => match nth_error (w_pres w) i with Some p => clone w p token | None => w end
  | SetID i x => match nth_error (w_pres w) i with
                 | Some p => set_pres w i {| p_creds := p_creds p; p_context := p_context p; p_type := p_type p; p_fields := p_fields p; p_id := x; p_holder := p_holder p; p_jwt := p_jwt p; p_proofs := p_proofs p |}
                 | None => w end
  | SetHolder i x => match nth_error (w_pres w) i with
                 | Some p => set_pres w i {| p_creds := p_creds p; p_context := p_context p; p_type := p_type p; p_fields := p_fields p; p_id := p_id p; p_holder := x; p_jwt := p_jwt p; p_proofs := p_proofs p |}
                 | None => w end
  (* presentation_ldp.go 26 *)
  | ProofP i ps => match nth_error (w_pres w) i with
                 | Some p => set_pres w i {| p_creds := p_creds p; p_context := p_context p; p_type := p_type p; p_fields := p_fields p; p_id := p_id p; p_holder := p_holder p; p_jwt := p_jwt p; p_proofs := ps |}
                 | None => w end
  | PutField i k v => match nth_error (w_pres w) i with
                 | Some p => match p_fields p with
                             | Some m => {| w_l := w_l w; w_m := m_put W (w_m w) m k v; w_pres := w_pres w; w_lists := w_lists w |}
                             | None => w
                             end
                 | None => w end
  end.
Definition run (w : world) (l : list call) : world := fold_left step l w.

(** What can be observed of a presentation, and of a list the caller holds *)
Record seen := { v_creds : list string; v_context : list string; v_type : list string; v_fields : gomap json; v_id : string; v_holder : string; v_jwt : string; v_proofs : list json }.
Definition see (w : world) (i : nat) : option seen :=
  match nth_error (w_pres w) i with
  | Some p => Some {| v_creds := l_read W (w_l w) (p_creds p); v_context := l_read W (w_l w) (p_context p); v_type := l_read W (w_l w) (p_type p);
                      v_fields := match p_fields p with Some m => m_read W (w_m w) m | None => [] end;
                      v_id := p_id p; v_holder := p_holder p; v_jwt := p_jwt p; v_proofs := p_proofs p |}
  | None => None
  end.
Definition see_list (w : world) (h : nat) : option (list string) := match nth_error (w_lists w) h with Some v => Some (l_read W (w_l w) v) | None => None end.
End Machine.
Arguments run {W}. Arguments step {W}. Arguments see {W}. Arguments see_list {W}. Arguments pushes {W}. Arguments handle {W}. Arguments clone {W}.

Definition go_start grow : world (go_store grow) := Build_world (W := go_store grow) {| g_arrs := []; g_vars := [] |} {| g_maps := []; g_refs := [] |} [] [].
Definition value_start : world value_store := Build_world (W := value_store) [] [] [] [].
(** the state of the program after these calls, and the state it would have if nothing were shared *)
Definition go_run grow (l : list call) := run (go_start grow) l.
Definition value_run (l : list call) := run value_start l.
