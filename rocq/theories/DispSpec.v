(** Specification vocabulary for displaying SD-JWT credentials, written without reference to the model. *)
From Verif Require Import GoBase SdSpec.

(** [Put V j out]: [out] is [j] with, for every digest, the content [V] gives put in its place as it is; a digest that [V] gives
    nothing for is dropped, with its place; no [_sd] and no [_sd_alg] member is left in [j]'s own objects. *)
Section Put.
  Variable V : string -> option dcontent.
  Inductive Put : json -> json -> Prop :=
  | Put_leaf j : (match j with JArr _ | JObj _ => False | _ => True end) -> Put j j
  | Put_arr l out : PutElems l out -> Put (JArr l) (arr_or_null out)
  | Put_obj m sds named mem :
      sd_list m = Some sds -> PutNamed sds named -> PutMembers m mem ->
      NoDup (map fst named) ->
      (forall k, In k (map fst m) -> plain_key true k = true -> ~ In k (map fst named)) ->
      Put (JObj m) (JObj (named ++ mem)%list)
  with PutElems : list json -> list json -> Prop :=
  | PE_nil : PutElems [] []
  | PE_plain v l out : digest_elem v = None -> PutElems l out -> PutElems (v :: l) (v :: out)
  | PE_hidden v d l out : digest_elem v = Some (JStr d) -> V d = None -> PutElems l out -> PutElems (v :: l) out
  | PE_shown v d x l out : digest_elem v = Some (JStr d) -> V d = Some (CElem x) -> PutElems l out -> PutElems (v :: l) (x :: out)
  with PutNamed : list string -> list (string * json) -> Prop :=
  | PN_nil : PutNamed [] []
  | PN_hidden d l out : V d = None -> PutNamed l out -> PutNamed (d :: l) out
  | PN_shown d n x l out : V d = Some (CMember n x) -> PutNamed l out -> PutNamed (d :: l) ((n, x) :: out)
  with PutMembers : list (string * json) -> list (string * json) -> Prop :=
  | PM_nil : PutMembers [] []
  | PM_skip k v m out : plain_key true k = false -> PutMembers m out -> PutMembers ((k, v) :: m) out
  | PM_keep k v v' m out : plain_key true k = true -> Put v v' -> PutMembers m out ->
      PutMembers ((k, v) :: m) (match v' with JNull => out | _ => (k, v') :: out end).
End Put.
Scheme Put_mind := Induction for Put Sort Prop
  with PutElems_mind := Induction for PutElems Sort Prop
  with PutNamed_mind := Induction for PutNamed Sort Prop
  with PutMembers_mind := Induction for PutMembers Sort Prop.
Combined Scheme Put_mutind from Put_mind, PutElems_mind, PutNamed_mind, PutMembers_mind.

(** [shown_content D ok V]: [V] gives the disclosures of [D] whose claim name is accepted by [ok] (array elements have the empty
    name), their own nested disclosures - whatever their names - put in. *)
Definition resolved_content (D : string -> option dcontent) (c0 c : dcontent) : Prop :=
  match c0, c with
  | CElem x0, CElem x => exists ds, Res true D x0 x ds
  | CMember n0 x0, CMember n x => n0 = n /\ exists ds, Res true D x0 x ds
  | COther, COther => True
  | _, _ => False
  end.
Definition content_name (c : dcontent) : string := match c with CMember n _ => n | _ => "" end.
Definition shown_content (D : string -> option dcontent) (ok : string -> Prop) (V : string -> option dcontent) : Prop :=
  forall d, (forall c, V d = Some c <-> exists c0, D d = Some c0 /\ ok (content_name c0) /\ resolved_content D c0 c).

(** [Pruned m m']: [m'] is the object [m] without the members that are objects with nothing in them, after the same has been done
    to them. *)
Inductive Pruned : list (string * json) -> list (string * json) -> Prop :=
| Pr_nil : Pruned [] []
| Pr_plain k v m m' : (forall o, v <> JObj o) -> Pruned m m' -> Pruned ((k, v) :: m) ((k, v) :: m')
| Pr_empty k o m m' : Pruned o [] -> Pruned m m' -> Pruned ((k, JObj o) :: m) m'
| Pr_full k o o' m m' : Pruned o o' -> o' <> [] -> Pruned m m' -> Pruned ((k, JObj o) :: m) ((k, JObj o') :: m').
(** a credential object with its subject pruned, if that is a single object *)
Definition subject_pruned (m m' : list (string * json)) : Prop :=
  (exists s s', mget m "credentialSubject" = Some (JObj s) /\ Pruned s s' /\ m' = mset m "credentialSubject" (JObj s'))
  \/ ((forall s, mget m "credentialSubject" <> Some (JObj s)) /\ m' = m).
