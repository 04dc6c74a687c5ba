(** Specification vocabulary for SD-JWT (draft-ietf-oauth-selective-disclosure-jwt), written without
    reference to the model: digests in JSON values, disclosures, resolution of a payload. *)
From Verif Require Import GoBase.

(** What a disclosure says: an array element (2 items), an object member (3 items), anything else. *)
Inductive dcontent :=
| CElem (v : json)
| CMember (name : string) (v : json)
| COther.
Definition disclosed_value (c : dcontent) : json :=
  match c with CElem v => v | CMember _ v => v | COther => JNull end.

(** The digests listed under an object's [_sd] member; None: not an array of strings. *)
Fixpoint all_strings (l : list json) : option (list string) :=
  match l with
  | [] => Some []
  | JStr s :: l' => match all_strings l' with Some r => Some (s :: r) | None => None end
  | _ :: _ => None
  end.
Definition sd_list (m : list (string * json)) : option (list string) :=
  match mget m "_sd" with
  | None | Some JNull => Some []
  | Some (JArr l) => all_strings l
  | Some _ => None
  end.

(** [occurs d j]: digest [d] occurs in [j] (as an [_sd] entry or as an array element placeholder). *)
Inductive occurs (d : string) : json -> Prop :=
| occ_sd m l : mget m "_sd" = Some (JArr l) -> In (JStr d) l -> occurs d (JObj m)
| occ_elem l m : In (JObj m) l -> mget m "..." = Some (JStr d) -> occurs d (JArr l)
| occ_member m k v : In (k, v) m -> k <> "_sd" -> occurs d v -> occurs d (JObj m).

(** The members of an object that are not SD-JWT bookkeeping: [_sd] always is, [_sd_alg] is when the
    bookkeeping is being removed ([clean]). *)
Definition plain_key (clean : bool) (k : string) : bool :=
  negb (String.eqb k "_sd") && negb (clean && String.eqb k "_sd_alg").

(** All digest occurrences of a value, with repetitions. *)
Definition elem_digest (v : json) : list string :=
  match v with
  | JObj m => match mget m "..." with Some (JStr d) => [d] | _ => [] end
  | _ => []
  end.
Section MemberDigests.
  Variables (clean : bool) (f : json -> list string).
  Fixpoint member_digests (m : list (string * json)) : list string :=
    match m with
    | [] => []
    | (k, v) :: m' => if plain_key clean k then (f v ++ member_digests m')%list else member_digests m'
    end.
End MemberDigests.
Definition sd_digests (m : list (string * json)) : list string :=
  match sd_list m with Some l => l | None => [] end.
Fixpoint digests_in (clean : bool) (j : json) : list string :=
  match j with
  | JArr l => flat_map elem_digest l
  | JObj m => (sd_digests m ++ member_digests clean (digests_in clean) m)%list
  | _ => []
  end.

(** A digest is committed to by [j] if it occurs in [j] or in the value of a disclosure that is itself
    committed to.  [D]: the disclosure with a given digest. *)
Inductive committed (D : string -> option dcontent) (j : json) : string -> Prop :=
| com_here d : occurs d j -> committed D j d
| com_nested e c d : committed D j e -> D e = Some c -> occurs d (disclosed_value c) -> committed D j d.

(** Equality of JSON values: objects are unordered. *)
Inductive jeq : json -> json -> Prop :=
| jeq_leaf j : (match j with JArr _ | JObj _ => False | _ => True end) -> jeq j j
| jeq_arr l l' : Forall2 jeq l l' -> jeq (JArr l) (JArr l')
| jeq_obj m p m' : Permutation m p -> Forall2 (fun a b => fst a = fst b /\ jeq (snd a) (snd b)) p m' ->
    jeq (JObj m) (JObj m').

(** Resolution: [Res clean D j out ds] - putting the disclosures [D] into the value [j] gives [out];
    [ds] lists the digests met on the way, those inside disclosed values included.
    With [clean] all bookkeeping is removed, otherwise undisclosed digests are kept. *)
Section Res.
  Variables (clean : bool) (D : string -> option dcontent).
  Definition arr_or_null (l : list json) : json := match l with [] => JNull | _ => JArr l end.
  (** undisclosed [_sd] digests are kept when not cleaning *)
  Definition with_hidden (named : list (string * json)) (hidden : list string) : list (string * json) :=
    if clean then named
    else match hidden with [] => named | _ => mset named "_sd" (JArr (map JStr hidden)) end.
  Definition digest_elem (v : json) : option json :=
    match v with JObj m => mget m "..." | _ => None end.

  Inductive Res : json -> json -> list string -> Prop :=
  | Res_leaf j : (match j with JArr _ | JObj _ => False | _ => True end) -> Res j j []
  | Res_arr l out ds : Elems l out ds -> Res (JArr l) (arr_or_null out) ds
  | Res_obj m sds named hidden ds1 mem ds2 :
      sd_list m = Some sds ->
      Named sds named hidden ds1 ->
      Members m mem ds2 ->
      (* a claim name occurs at most once per level *)
      NoDup (map fst named) ->
      (forall k, In k (map fst m) -> plain_key clean k = true -> ~ In k (map fst named)) ->
      Res (JObj m) (JObj (with_hidden named hidden ++ mem)%list) (ds1 ++ ds2)%list
  with Elems : list json -> list json -> list string -> Prop :=
  | El_nil : Elems [] [] []
  | El_plain v l out ds : digest_elem v = None -> Elems l out ds -> Elems (v :: l) (v :: out) ds
  | El_hidden v d l out ds : digest_elem v = Some (JStr d) -> D d = None -> Elems l out ds ->
      Elems (v :: l) (if clean then out else v :: out) (d :: ds)
  | El_disclosed v d x x' ds1 l out ds : digest_elem v = Some (JStr d) -> D d = Some (CElem x) ->
      Res x x' ds1 -> Elems l out ds -> Elems (v :: l) (x' :: out) (d :: ds1 ++ ds)%list
  with Named : list string -> list (string * json) -> list string -> list string -> Prop :=
  | Nm_nil : Named [] [] [] []
  | Nm_hidden d l out hid ds : D d = None -> Named l out hid ds -> Named (d :: l) out (d :: hid) (d :: ds)
  | Nm_disclosed d n x x' ds1 l out hid ds : D d = Some (CMember n x) -> Res x x' ds1 -> Named l out hid ds ->
      Named (d :: l) ((n, x') :: out) hid (d :: ds1 ++ ds)%list
  with Members : list (string * json) -> list (string * json) -> list string -> Prop :=
  | Mb_nil : Members [] [] []
  | Mb_skip k v m out ds : plain_key clean k = false -> Members m out ds -> Members ((k, v) :: m) out ds
  | Mb_keep k v v' m out ds1 ds : plain_key clean k = true -> Res v v' ds1 -> Members m out ds ->
      Members ((k, v) :: m) (match v' with JNull => out | _ => (k, v') :: out end) (ds1 ++ ds)%list.
End Res.

(** Disclosures as strings: what one says ([decode]: base64url then JSON), and the disclosure supplied for a
    digest (the last one with that digest, should several have it). *)
Definition disclosure_content (decode : string -> option json) (s : string) : option dcontent :=
  match decode s with
  | Some (JArr [JStr _; v]) => Some (CElem v)
  | Some (JArr [JStr _; JStr n; v]) => Some (CMember n v)
  | Some (JArr (JStr _ :: _ :: _ :: _ :: _)) => Some COther
  | _ => None
  end.
Fixpoint supplied (content : string -> option dcontent) (hash : string -> string) (ds : list string) (d : string)
  : option dcontent :=
  match ds with
  | [] => None
  | s :: ds' => match supplied content hash ds' d with
                | Some c => Some c
                | None => if String.eqb (hash s) d then content s else None
                end
  end.

(** A digest at any depth, inside array elements too. *)
Inductive digest_anywhere (d : string) : json -> Prop :=
| da_sd m l : In ("_sd", JArr l) m -> In (JStr d) l -> digest_anywhere d (JObj m)
| da_elem l m : In (JObj m) l -> In ("...", JStr d) m -> digest_anywhere d (JArr l)
| da_member m k v : In (k, v) m -> digest_anywhere d v -> digest_anywhere d (JObj m)
| da_arr l v : In v l -> digest_anywhere d v -> digest_anywhere d (JArr l).

(** Array elements that are not placeholders contain no digests. *)
Inductive tidy : json -> Prop :=
| tidy_leaf j : (match j with JArr _ | JObj _ => False | _ => True end) -> tidy j
| tidy_arr l : (forall v, In v l -> digest_elem v = None -> forall d, ~ digest_anywhere d v) -> tidy (JArr l)
| tidy_obj m : (forall k v, In (k, v) m -> k <> "_sd" -> tidy v) -> tidy (JObj m).

(** Scalars of a value (at any depth), and member names. *)
Inductive scalar_of (x : json) : json -> Prop :=
| so_here : (match x with JArr _ | JObj _ => False | _ => True end) -> scalar_of x x
| so_arr l v : In v l -> scalar_of x v -> scalar_of x (JArr l)
| so_obj m k v : In (k, v) m -> scalar_of x v -> scalar_of x (JObj m).
Inductive name_of (n : string) : json -> Prop :=
| no_here m v : In (n, v) m -> name_of n (JObj m)
| no_arr l v : In v l -> name_of n v -> name_of n (JArr l)
| no_obj m k v : In (k, v) m -> name_of n v -> name_of n (JObj m).
