(** Vocabulary for limited disclosure of credentials that are not SD-JWTs (presexch). *)
From Verif Require Import GoBase PexSpec PexModel StatusModel JwtSpec DiSpec VcSpec VcModel.

(** ** Positions in a JSON document: member names and (canonical decimal) array indexes. *)
Definition index_of (k : string) : option nat :=
  match digits_val 0 k with
  | Some z => if String.eqb (itoa (Z.to_nat z)) k then Some (Z.to_nat z) else None
  | None => None
  end.
Fixpoint look (j : json) (q : list string) : option json :=
  match q with
  | [] => Some j
  | k :: q' =>
      match j with
      | JObj m => match mget m k with Some x => look x q' | None => None end
      | JArr l => match index_of k with
                  | Some n => match nth_error l n with Some x => look x q' | None => None end
                  | None => None
                  end
      | _ => None
      end
  end.
(** Values without parts. *)
Definition leaf (v : json) : Prop :=
  match v with JArr (_ :: _) | JObj (_ :: _) => False | _ => True end.
Definition steps (ks : list pkey) : list string := map key_str ks.
(** Where the value found at [ks] of the credential goes: array indexes are replaced by their ranks. *)
Definition moved (rank : list pkey -> nat -> nat) (ks : list pkey) : list string := steps (renumber rank [] ks).
(** Neither position is inside the other. *)
Definition apart {A} (p q : list A) : Prop := (forall r, p <> (q ++ r)%list) /\ (forall r, q <> (p ++ r)%list).

(** ** Requests *)
(** A field of a constraints object: its paths, and whether only a predicate over the value is asked for. *)
Record cfield := { cf_paths : list string; cf_pred : bool }.
(** Member names that the path language of the JSON editing libraries (gjson, sjson) takes literally. *)
Definition literal_char (c : ascii) : bool := negb (existsb (Ascii.eqb c) [".";"*";"?";"#";"|";"\"]%char).
Definition literal_start (c : ascii) : bool := negb (existsb (Ascii.eqb c) ["@";"!";"[";"{";":"]%char).
Definition plain_name (s : string) : Prop :=
  s <> "" /\ s <> "-1" /\ digits_val 0 s = None /\
  forallb literal_char (list_ascii_of_string s) = true /\
  (s = "@context" \/ match s with String c _ => literal_start c = true | EmptyString => True end).
Definition plain_key (k : pkey) : Prop := match k with KName s => plain_name s | KIdx _ => True end.
(** An object at the root, no array directly inside an array. *)
Fixpoint no_nested_arrays (after_name : bool) (ks : list pkey) : Prop :=
  match ks with
  | [] => True
  | KName _ :: r => no_nested_arrays true r
  | KIdx _ :: r => after_name = true /\ no_nested_arrays false r
  end.
Definition plain_path (ks : list pkey) : Prop := Forall plain_key ks /\ no_nested_arrays false ks.

(** What is kept whatever is asked for: the members below and the subject ids (definition.go:1074-1082). *)
Definition kept : list string := ["id"; "type"; "@context"; "issuer"; "issuanceDate"].

(** Path [ks] of the credential [src] is selected by field [f], number [i] of the constraints; [jp]: the JSONPath evaluator. *)
Definition request (jp : list string -> json -> res (list (list pkey))) (src : json) (fs : list cfield) (i : nat) (f : cfield)
  (ks : list pkey) : Prop :=
  nth_error fs i = Some f /\ exists found, jp (cf_paths f) src = Ok found /\ In ks found.
(** No array is entered by two fields. *)
Definition separate_arrays (jp : list string -> json -> res (list (list pkey))) (src : json) (fs : list cfield) : Prop :=
  forall i j f g p v w r s, i <> j -> request jp src fs i f (p ++ KIdx v :: r)%list -> request jp src fs j g (p ++ KIdx w :: s)%list -> False.
(** No requested value contains another one. *)
Definition separate_values (jp : list string -> json -> res (list (list pkey))) (src : json) (fs : list cfield) : Prop :=
  forall i j f g p q, request jp src fs i f p -> request jp src fs j g q -> apart p q \/ (p = q /\ cf_pred f = cf_pred g).
(** Paths of credential schemas are never disclosed (definition.go:1284). *)
Definition schema_path (ks : list string) : Prop := substring_of "credentialSchema" (String.concat "." ks).
(** What a field says about the value at [ks]: the value, or only that there is one. *)
Definition told (src : json) (f : cfield) (ks : list pkey) : json :=
  if cf_pred f then JBool true else match look src (steps ks) with Some v => v | None => JNull end.
(** There is a value at [ks]. *)
Fixpoint located (j : json) (ks : list pkey) : Prop :=
  match ks with
  | [] => True
  | KName s :: r => exists m x, j = JObj m /\ mget m s = Some x /\ located x r
  | KIdx n :: r => exists l x, j = JArr l /\ nth_error l n = Some x /\ located x r
  end.
(** A value can be put at [q]: on the way an array is only entered at an index. *)
Fixpoint room (d : json) (q : list string) : Prop :=
  match q with
  | [] => True
  | k :: q' =>
      match d with
      | JObj m => match mget m k with Some x => room x q' | None => True end
      | JArr l => match index_of k with
                  | Some n => match nth_error l n with Some x => room x q' | None => True end
                  | None => False
                  end
      | _ => True
      end
  end.

(** The ids of the subjects (of the list [ids]; "" for none) at the positions a limited credential may tell them. *)
Definition tells_subject_id (ids : list string) (q : list string) (x : json) : Prop :=
  (exists s, ids = [s] /\ x = JStr s /\ (q = ["credentialSubject"] \/ q = ["credentialSubject"; "id"]))
  \/ (exists n s, nth_error ids n = Some s /\ x = JStr s /\ (1 < List.length ids)%nat /\ q = ["credentialSubject"; itoa n; "id"]).
(** Nothing is told. *)
Definition void (x : json) : Prop := x = JNull \/ x = JObj [].

(** [rank i] compacts the arrays entered by the paths of field [i]. *)
Definition ranks_ok (jp : list string -> json -> res (list (list pkey))) (src : json) (fs : list cfield) (rank : nat -> list pkey -> nat -> nat) : Prop :=
  forall i f rs, nth_error fs i = Some f -> jp (cf_paths f) src = Ok rs -> compacts rs (rank i).
(** All requested paths are plain. *)
Definition all_plain (jp : list string -> json -> res (list (list pkey))) (src : json) (fs : list cfield) : Prop :=
  forall i f ks, request jp src fs i f ks -> plain_path ks.

(** ** The frame of a BBS+ derivation *)
Definition marker : list string := ["@explicit"; "type"; "@context"].
(** A member inside another object, reached through plain names, only the last of which may be "type" or "@context". *)
Definition member_path (ks : list pkey) : Prop :=
  exists l x, ks = map KName (l ++ [x])%list /\ l <> [] /\ Forall plain_name (l ++ [x])%list /\ Forall (fun s => ~ In s marker) l.
(** What the frame has beyond the template. *)
Inductive framed (jp : list string -> json -> res (list (list pkey))) (src : json) (fs : list cfield) : list string -> json -> Prop :=
| fr_root : framed jp src fs ["@explicit"] (JBool true)
| fr_asked i f ks v : request jp src fs i f ks -> ~ schema_path (steps ks) -> look src (steps ks) = Some v -> framed jp src fs (steps ks) v
| fr_mark i f ks a b : request jp src fs i f ks -> ~ schema_path (steps ks) -> steps ks = (a ++ b)%list -> a <> [] -> b <> [] ->
    framed jp src fs (a ++ ["@explicit"])%list (JBool true)
| fr_copy i f ks a b s v : request jp src fs i f ks -> ~ schema_path (steps ks) -> steps ks = (a ++ b)%list -> a <> [] -> b <> [] ->
    In s ["type"; "@context"] -> look src (a ++ [s])%list = Some v -> v <> JNull -> framed jp src fs (a ++ [s])%list v.
(** ** Credentials *)
(** One of the proofs is a BBS+ signature. *)
Definition bbs_signed (v : credential) : Prop := exists p, In p (cr_proofs v) /\ mget p "type" = Some (JStr "BbsBlsSignature2020").
(** The credential is an SD-JWT: it names a hash algorithm for its digests. *)
Definition sd_jwt (v : credential) : Prop := vc_sdalg (cr_contents v) <> None.
(** A predicate is asked about something that is there and is not a credential schema. *)
Definition predicate_hits (jp : list string -> json -> res (list (list pkey))) (src : json) (fs : list cfield) : Prop :=
  exists i f ks, request jp src fs i f ks /\ cf_pred f = true /\ forall rank, ~ schema_path (moved rank ks).
