(** Specification vocabulary for SD-JWT issuance: a claims object with the selectively disclosable positions
    marked, independent of the issuer's code. *)
From Coq Require DecimalString.
From Verif Require Import GoBase JwtSpec SdSpec.

(** A JSON value some of whose members / array elements are hidden behind a disclosure.
    A label [Some s] on an element or member: hidden, revealed by disclosure [s]. *)
Inductive tree :=
| TVal (j : json)                                              (* in one piece *)
| TArr (els : list (option string * json))
| TObj (mems : list (string * option string * tree)).

Section TreeInd.
  Variable P : tree -> Prop.
  Hypothesis Hval : forall j, P (TVal j).
  Hypothesis Harr : forall l, P (TArr l).
  Hypothesis Hobj : forall m, Forall (fun x => P (snd x)) m -> P (TObj m).
  Fixpoint tree_ind' (t : tree) : P t :=
    match t with
    | TVal j => Hval j
    | TArr l => Harr l
    | TObj m => Hobj m ((fix go m : Forall (fun x => P (snd x)) m :=
        match m with [] => Forall_nil _ | x :: xs => Forall_cons x (tree_ind' (snd x)) (go xs) end) m)
    end.
End TreeInd.

(** The original claims. *)
Fixpoint erase (t : tree) : json :=
  match t with
  | TVal j => j
  | TArr els => JArr (map snd els)
  | TObj mems => JObj (map (fun x => (fst (fst x), erase (snd x))) mems)
  end.

(** What somebody sees who holds the disclosures [sel].  (An array none of whose elements is revealed reads as
    null; a clear-text member that reads as null is left out.) *)
Section Reveal.
  Variable sel : string -> bool.
  Definition shown (label : option string) : bool := match label with None => true | Some s => sel s end.
  Definition reveal_member (label : option string) (n : string) (v : json) : list (string * json) :=
    match label, v with
    | None, JNull => []
    | None, _ => [(n, v)]
    | Some s, _ => if sel s then [(n, v)] else []
    end.
  Fixpoint reveal (t : tree) : json :=
    match t with
    | TVal j => j
    | TArr els => arr_or_null (map snd (filter (fun e => shown (fst e)) els))
    | TObj mems => JObj (flat_map (fun x => reveal_member (snd (fst x)) (fst (fst x)) (reveal (snd x))) mems)
    end.
  (** The disclosures one gets to see the digests of. *)
  Definition opt_list (o : option string) : list string := match o with Some s => [s] | None => [] end.
  Fixpoint reachable (t : tree) : list string :=
    match t with
    | TVal _ => []
    | TArr els => flat_map (fun e => opt_list (fst e)) els
    | TObj mems => flat_map (fun x => (opt_list (snd (fst x)) ++ if shown (snd (fst x)) then reachable (snd x) else [])%list) mems
    end.
End Reveal.
Definition all_discs (t : tree) : list string := reachable (fun _ => true) t.

(** The members of a revealed object. *)
Definition members_of (j : json) : list (string * json) := match j with JObj m => m | _ => [] end.

(** Claims a round trip preserves: keys unique and not reserved, no null, no empty array. *)
Definition reserved (k : string) : Prop := k = "_sd" \/ k = "_sd_alg" \/ k = "...".
Inductive ordinary : json -> Prop :=
| ord_scalar j : (match j with JBool _ | JNum _ | JStr _ => True | _ => False end) -> ordinary j
| ord_arr l : l <> [] -> (forall v, In v l -> ordinary v) -> ordinary (JArr l)
| ord_obj m : NoDup (map fst m) -> (forall k v, In (k, v) m -> ~ reserved k /\ ordinary v) -> ordinary (JObj m).

(** Strings of a value (string scalars and member names) all satisfy [ok] (valid UTF-8, say). *)
Definition texts (ok : string -> Prop) (j : json) : Prop :=
  (forall s, scalar_of (JStr s) j -> ok s) /\ (forall n, name_of n j -> ok n).
(** The JSON decoder reads back what the encoder writes, up to member order, for values with [ok] strings. *)
Definition reads_back (decode : string -> option json) (encode : json -> option string) (ok : string -> Prop) : Prop :=
  forall j b, wf_json j -> texts ok j -> encode j = Some b -> exists j', decode b = Some j' /\ jeq j j'.

(** ** Which claims each format hides *)

(** Claim paths: names joined by dots. *)
Definition sub_path (path key : string) : string := if String.eqb path "" then key else path ++ "." ++ key.
Definition is_object (j : json) : bool := match j with JObj _ => true | _ => false end.

(** SD-JWT "v2": every claim is hidden as a whole, except the listed ones; with structured claims objects are
    descended into instead. *)
Inductive v2_marked (structured : bool) (clear : list string) : string -> tree -> Prop :=
| v2m_obj path mems :
    (forall n l t, In (n, l, t) mems -> structured && is_object (erase t) = true ->
       l = None /\ v2_marked structured clear (sub_path path n) t) ->
    (forall n l t, In (n, l, t) mems -> structured && is_object (erase t) = false ->
       t = TVal (erase t) /\ (l = None <-> In (sub_path path n) clear)) ->
    v2_marked structured clear path (TObj mems).

(** Path of an array element, e.g. [langs[0]]. *)
Definition elem_path (path : string) (i : nat) : string :=
  path ++ "[" ++ DecimalString.NilZero.string_of_uint (Nat.to_uint i) ++ "]".

(** SD-JWT "v5".  [whole]: inside an object that is hidden as a whole, where scalars are not hidden again.
    - a listed ([clear]) claim is clear-text in one piece;
    - an object is hidden unless it is always included or (structured and not recursive), and descended into;
    - an array is hidden unless always included or structured; each element is hidden unless listed;
    - a scalar is hidden unless [whole]. *)
Inductive v5_marked (structured : bool) (clear always recursive : list string) : bool -> string -> tree -> Prop :=
| v5m_obj whole path mems :
    (forall n l t, In (n, l, t) mems -> v5_member structured clear always recursive whole (sub_path path n) l t) ->
    v5_marked structured clear always recursive whole path (TObj mems)
with v5_member (structured : bool) (clear always recursive : list string) : bool -> string -> option string -> tree -> Prop :=
| v5m_listed whole p j : In p clear -> v5_member structured clear always recursive whole p None (TVal j)
| v5m_scalar whole p l j : ~ In p clear -> (match j with JArr _ | JObj _ => False | _ => True end) ->
    (l = None <-> whole = true) -> v5_member structured clear always recursive whole p l (TVal j)
| v5m_array whole p l els : ~ In p clear ->
    (l = None <-> In p always \/ structured = true) ->
    (forall i l' v, nth_error els i = Some (l', v) -> (l' = None <-> In (elem_path p i) clear)) ->
    v5_member structured clear always recursive whole p l (TArr els)
| v5m_object whole whole' p l mems : ~ In p clear ->
    (l = None <-> In p always \/ (structured = true /\ ~ In p recursive)) ->
    (whole' = true <-> ~ In p always /\ ~ In p recursive /\ structured = false) ->
    v5_marked structured clear always recursive whole' p (TObj mems) ->
    v5_member structured clear always recursive whole p l (TObj mems).

(** ** What an issued payload shows in clear text: the scalars and names outside hidden parts. *)
Inductive clear_scalar (x : json) : tree -> Prop :=
| cs_val j : scalar_of x j -> clear_scalar x (TVal j)
| cs_arr els v : In (None, v) els -> scalar_of x v -> clear_scalar x (TArr els)
| cs_obj mems n t : In (n, None, t) mems -> clear_scalar x t -> clear_scalar x (TObj mems).
Inductive clear_name (n : string) : tree -> Prop :=
| cn_val j : name_of n j -> clear_name n (TVal j)
| cn_arr els v : In (None, v) els -> name_of n v -> clear_name n (TArr els)
| cn_here mems t : In (n, None, t) mems -> clear_name n (TObj mems)
| cn_obj mems k t : In (k, None, t) mems -> clear_name n t -> clear_name n (TObj mems).

(** ** Credentials: the claims are the [vc] object, or the credential itself *)
Definition vc_claims (vc : gomap json) : gomap json := match mget vc "vc" with Some (JObj c) => c | _ => vc end.
Definition with_claims (vc c : gomap json) : gomap json :=
  match mget vc "vc" with Some (JObj _) => mset vc "vc" (JObj c) | _ => c end.
(** bound to a holder key *)
Definition bound (holder : option json) (c : gomap json) : gomap json :=
  match holder with Some k => mset c "cnf" (JObj [("jwk", k)]) | None => c end.
