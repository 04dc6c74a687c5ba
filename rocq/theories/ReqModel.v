(** Model of presexch/internal/requirementlogic/{requirementlogic,stringset}.go and of the
    requirement part of presexch/definition.go. *)
From Verif Require Import GoBase ReqSpec.

(** ** StringSet: presexch/internal/requirementlogic/stringset.go:15-55.
    A Go map used as a set is a duplicate-free list (order irrelevant: only Has/Len/lookups are used). *)
Definition init_from_slice (l : list string) : list string := nodup string_dec l.
Definition set_has (s : list string) (x : string) : bool := str_in x s.

(** requirementlogic.go:77-91 isLenApplicable *)
Definition is_len_applicable (count mn mx val : Z) : bool :=
  if ((0 <? count) && negb (val =? count))%bool then false
  else if ((0 <? mn) && (val <? mn))%bool then false
  else if ((0 <? mx) && (mx <? val))%bool then false
  else true.

(** requirementlogic.go:33-55 IsSatisfiedBy; [descs] is the set. *)
Fixpoint is_satisfied_by (r : rlogic) (descs : list string) {struct r} : bool :=
  match r with
  | RL ids nested count mn mx =>
      match nested with
      | [] => is_len_applicable count mn mx
                (Z.of_nat (List.length (init_from_slice (filter (set_has descs) ids))))
      | _ => is_len_applicable count mn mx
                (Z.of_nat (List.length (filter (fun c => is_satisfied_by c descs) nested)))
      end
  end.

(** requirementlogic.go:58-70 GetAllDescriptors, stringset.go:29-39 MergeAll *)
Fixpoint get_all_descriptors (r : rlogic) : list string :=
  match r with
  | RL ids nested _ _ _ =>
      match nested with
      | [] => init_from_slice ids
      | _ => nodup string_dec (List.concat (map get_all_descriptors nested))
      end
  end.

(** ** Bitset iterator: requirementlogic.go:110-287 *)
Record iter := { it_req : rlogic; it_state : N; it_descs : list string; it_done : bool }.

(** requirementlogic.go:120-143 NewBitsetIterator.  [useDescs] has one slot per required descriptor,
    unfilled slots stay ""; writing past the end panics.  idxMap is never read. *)
Definition new_iterator (r : rlogic) (descs : list string) : res iter :=
  let req := get_all_descriptors r in
  let used := filter (set_has req) descs in
  if (List.length req <? List.length used)%nat then Panic
  else Ok {| it_req := r; it_state := 0;
             it_descs := used ++ repeat "" (List.length req - List.length used); it_done := false |}.

(** requirementlogic.go:277-287 current *)
Fixpoint current_from (descs : list string) (i : N) (state : N) : list string :=
  match descs with
  | [] => []
  | d :: ds => if N.testbit state i then d :: current_from ds (i + 1)%N state else current_from ds (i + 1)%N state
  end.
Definition current (descs : list string) (state : N) : list string := current_from descs 0 state.

(** requirementlogic.go:151-159: indices of [b.descs] that are excluded. *)
Fixpoint exclude_indices (descs : list string) (i : N) (excl : list string) : list N :=
  match descs with
  | [] => []
  | d :: ds => if str_in d excl then i :: exclude_indices ds (i + 1)%N excl
               else exclude_indices ds (i + 1)%N excl
  end.
Definition n_in (x : N) (l : list N) : bool := existsb (N.eqb x) l.
Fixpoint remove_indices (descs : list string) (i : N) (idx : list N) : list string :=
  match descs with
  | [] => []
  | d :: ds => if n_in i idx then remove_indices ds (i + 1)%N idx
               else d :: remove_indices ds (i + 1)%N idx
  end.

(** requirementlogic.go:221-255 excludeDescriptors *)
Definition exclude_descriptors (it : iter) (idx : list N) : iter :=
  let k := fold_left N.max idx 0%N in
  let bit := N.shiftl 1 k in
  let state := N.ldiff (it_state it) (bit - 1)%N in
  let state := (state + bit)%N in
  let state := N.shiftr state (N.of_nat (List.length idx)) in
  {| it_req := it_req it; it_state := state; it_descs := remove_indices (it_descs it) 0 idx; it_done := it_done it |}.

Definition set_state (it : iter) (s : N) : iter :=
  {| it_req := it_req it; it_state := s; it_descs := it_descs it; it_done := it_done it |}.

(** requirementlogic.go:257-275 incrementUntilValid; [None] = fuel exhausted (proved impossible). *)
Fixpoint increment_until_valid (fuel : nat) (it : iter) : option (iter * list string) :=
  match fuel with
  | O => None
  | S f =>
      match current (it_descs it) (it_state it) with
      | [] => Some (it, [])
      | cur => if is_satisfied_by (it_req it) (init_from_slice cur) then Some (it, cur)
               else increment_until_valid f (set_state it (it_state it + 1))
      end
  end.
Definition iter_fuel (it : iter) : nat := S (N.to_nat (2 ^ N.of_nat (List.length (it_descs it)) - it_state it)).

(** requirementlogic.go:146-178 Next, next *)
Definition iter_next (it : iter) (excl : list string) : option (iter * list string) :=
  if it_done it then Some (it, [])
  else
    let idx := exclude_indices (it_descs it) 0 excl in
    let it1 := match idx with [] => set_state it (it_state it + 1) | _ => exclude_descriptors it idx end in
    match increment_until_valid (iter_fuel it1) it1 with
    | None => None
    | Some (it2, out) =>
        Some ({| it_req := it_req it2; it_state := it_state it2; it_descs := it_descs it2;
                 it_done := match out with [] => true | _ => it_done it2 end |}, out)
    end.

(** ** presexch/definition.go *)

(** definition.go:321-330 requirement (name, purpose and rule are not used by the search). *)
Inductive requirement : Type := RQ (count mn mx : Z) (descs : list idesc) (nested : list requirement).

(** definition.go:332-364 toLogic *)
Fixpoint to_logic (r : requirement) : rlogic :=
  match r with
  | RQ count mn mx descs nested =>
      let total := match nested with [] => List.length descs | _ => List.length nested end in
      RL (map id_id descs) (map to_logic nested) count mn
         (if ((count =? 0) && (mx =? 0))%bool then Z.of_nat total else mx)
  end.

(** definition.go:366-394 requirement.getAllDescriptors (as a lookup by id: the last descriptor of a
    leaf with that id wins within a leaf, the first child wins across children). *)
Fixpoint req_descriptor (r : requirement) (id : string) : option idesc :=
  match r with
  | RQ _ _ _ descs nested =>
      match descs with
      | [] => (fix go l := match l with [] => None | c :: cs =>
                 match req_descriptor c id with Some d => Some d | None => go cs end end) nested
      | _ => find (fun d => String.eqb (id_id d) id) (rev descs)
      end
  end.

(** definition.go:405-453 toRequirement *)
Fixpoint to_requirement (descs : list idesc) (sr : sreq) {struct sr} : res requirement :=
  match sr with
  | SR all count mn mx from nested =>
      if negb (String.eqb from "") then
        let group := filter (fun d => str_in from (id_group d)) descs in
        let total := Z.of_nat (List.length group) in
        if total =? 0 then Err "no descriptors for from"
        else Ok (RQ (if all then total else count) mn mx group [])
      else
        let* ns := (fix go l := match l with
                    | [] => Ok []
                    | s :: ss => let* r := to_requirement descs s in let* rs := go ss in Ok (r :: rs)
                    end) nested in
        let total := Z.of_nat (List.length ns) in
        Ok (RQ (if all then total else count) mn mx [] ns)
  end.
Fixpoint to_requirements (descs : list idesc) (l : list sreq) : res (list requirement) :=
  match l with
  | [] => Ok []
  | s :: ss => let* r := to_requirement descs s in let* rs := to_requirements descs ss in Ok (r :: rs)
  end.

(** definition.go:455-477 makeRequirement *)
Definition make_requirement (reqs : list sreq) (descs : list idesc) : res requirement :=
  match reqs with
  | [] => Ok (RQ (Z.of_nat (List.length descs)) 0 0 descs [])
  | _ => let* ns := to_requirements descs reqs in
         Ok (RQ (Z.of_nat (List.length reqs)) 0 0 [] ns)
  end.

(** ** The search of definition.go:739-834 applyRequirement.
    [eval d] stands for filterCredentialsThatMatchDescriptor + limitDisclosure on the (framed)
    credential list: format and matched credentials, or an error. *)
Section Apply.
  Variable cred : Type.
  Variable eval : idesc -> res (string * list cred).

  Record search := { se_evaluated : list string; se_matches : gomap (string * list cred) }.
  Inductive sol_result := Solved | Excluding (l : list string).

  (** definition.go:774-811: walk through one candidate solution. *)
  Fixpoint walk (descs : string -> option idesc) (st : search) (sol : list string) : res (search * sol_result) :=
    match sol with
    | [] => Ok (st, Solved)
    | d :: sol' =>
        if set_has (se_evaluated st) d then
          if mhas (se_matches st) d then walk descs st sol' else Ok (st, Excluding [])
        else
          let ev := d :: se_evaluated st in
          match descs d with
          | None => Panic                                    (* nil *InputDescriptor *)
          | Some desc =>
              let* fc := eval desc in
              match snd fc with
              | [] => Ok ({| se_evaluated := ev; se_matches := se_matches st |}, Excluding [d])
              | _ => walk descs {| se_evaluated := ev; se_matches := mset (se_matches st) (id_id desc) fc |} sol'
              end
          end
    end.

  (** definition.go:821-827: build the result and the format. *)
  Fixpoint collect (m : gomap (string * list cred)) (sol : list string) (fmt : string)
    (acc : gomap (list cred)) : res (string * gomap (list cred)) :=
    match sol with
    | [] => Ok (fmt, acc)
    | d :: sol' =>
        match mget m d with
        | None => Panic
        | Some (f, cs) => collect m sol' (if String.eqb f "" then fmt else f) (mset acc d cs)
        end
    end.

  Fixpoint search_loop (fuel : nat) (descs : string -> option idesc) (it : iter) (st : search)
    (excl : list string) (default_fmt : string) : option (res (string * gomap (list cred))) :=
    match fuel with
    | O => None
    | S f =>
        match iter_next it excl with
        | None => None
        | Some (_, []) => Some (Err "credentials do not satisfy requirements")
        | Some (it', sol) =>
            match walk descs st sol with
            | Panic => Some Panic
            | Err e => Some (Err e)
            | Ok (st', Solved) => Some (collect (se_matches st') sol default_fmt [])
            | Ok (st', Excluding l) => search_loop f descs it' st' l default_fmt
            end
        end
    end.

  (** definition.go:739-834 *)
  Definition apply_requirement (pd_descs : list idesc) (r : requirement) (default_fmt : string)
    : option (res (string * gomap (list cred))) :=
    match new_iterator (to_logic r) (map id_id pd_descs) with
    | Panic => Some Panic
    | Err e => Some (Err e)
    | Ok it => search_loop (List.length (it_descs it) + 2) (req_descriptor r) it
                 {| se_evaluated := []; se_matches := [] |} [] default_fmt
    end.
End Apply.
