(** Model of the validation against embedded JSON schemas: verifiable/credential.go:2168-2300, verifiable/presentation.go:972-1002,
    presexch/definition.go:280-318.  The evaluator stands for github.com/xeipuuv/gojsonschema v1.2.0 (not in the sandbox): the
    keywords that occur in the embedded schemas, with the meaning JSON Schema draft-07 gives them.  A schema is a JSON value.
    Oracles: [re] regular expressions, [fmt] the format checkers, [ext] schemas behind references that do not start with "#"
    (the draft-07 meta-schema, which gojsonschema carries).
    Simplifications: numbers are compared by value, object members are unique. *)
From Verif Require Import GoBase.

(** ** Equality of values (gojsonschema compares marshalled texts; map members are sorted) *)
Definition num_eqb (p q : Q) : bool := ((Qnum p =? Qnum q)%Z && Pos.eqb (Qden p) (Qden q))%bool.
Fixpoint jsame (a b : json) {struct a} : bool :=
  match a, b with
  | JNull, JNull => true
  | JBool x, JBool y => Bool.eqb x y
  | JNum x, JNum y => num_eqb x y
  | JStr x, JStr y => String.eqb x y
  | JArr l, JArr k => (fix go l k := match l, k with [], [] => true | x :: l, y :: k => (jsame x y && go l k)%bool | _, _ => false end) l k
  | JObj m, JObj k =>
      (Nat.eqb (List.length m) (List.length k) &&
       (fix go (l : list (string * json)) := match l with
        | [] => true
        | (n, x) :: l => ((match mget k n with Some y => jsame x y | None => false end) && go l)%bool
        end) m)%bool
  | _, _ => false
  end.
Fixpoint all_distinct (l : list json) : bool :=
  match l with [] => true | x :: r => (negb (existsb (jsame x) r) && all_distinct r)%bool end.

(** ** Patterns of the form ^lit$|^lit$... are decided here, others by [re] *)
Definition plain_char (c : ascii) : bool :=
  let n := nat_of_ascii c in
  (((65 <=? n) && (n <=? 90)) || ((97 <=? n) && (n <=? 122)) || ((48 <=? n) && (n <=? 57)) || (n =? 95))%nat%bool.
(** drop the leading ^ and the final $ *)
Fixpoint chop_last (s : string) : option (string * ascii) :=
  match s with
  | EmptyString => None
  | String c EmptyString => Some (EmptyString, c)
  | String c s' => match chop_last s' with Some (t, z) => Some (String c t, z) | None => None end
  end.
Definition literal (s : string) : option string :=
  match s with
  | String "^"%char r => match chop_last r with
                         | Some (t, "$"%char) => if forallb plain_char (list_ascii_of_string t) then Some t else None
                         | _ => None
                         end
  | _ => None
  end.
Fixpoint literals (l : list string) : option (list string) :=
  match l with
  | [] => Some []
  | s :: r => match literal s, literals r with Some x, Some xs => Some (x :: xs) | _, _ => None end
  end.
Definition matches (re : string -> string -> bool) (p s : string) : bool :=
  match literals (split_on "|" p) with Some ls => str_in s ls | None => re p s end.

(** ** Keywords; [v]: the validator of sub-schemas *)
Definition q_int (q : Q) : bool := (Qnum q mod Z.pos (Qden q) =? 0)%Z.
Definition is_type (t : string) (d : json) : bool :=
  match d with
  | JNull => String.eqb t "null"
  | JBool _ => String.eqb t "boolean"
  | JNum q => (String.eqb t "number" || (String.eqb t "integer" && q_int q))%bool
  | JStr _ => String.eqb t "string"
  | JArr _ => String.eqb t "array"
  | JObj _ => String.eqb t "object"
  end.
Definition kw_type (s : gomap json) (d : json) : bool :=
  match mget s "type" with
  | None => true
  | Some (JStr t) => is_type t d
  | Some (JArr ts) => existsb (fun t => match t with JStr t => is_type t d | _ => false end) ts
  | Some _ => false
  end.
Definition kw_const (s : gomap json) (d : json) : bool :=
  match mget s "const" with None => true | Some c => jsame c d end.
Definition kw_enum (s : gomap json) (d : json) : bool :=
  match mget s "enum" with None => true | Some (JArr cs) => existsb (fun c => jsame c d) cs | Some _ => false end.
Definition kw_string (re fmt : string -> string -> bool) (s : gomap json) (d : json) : bool :=
  match d with
  | JStr x =>
      (match mget s "pattern" with None => true | Some (JStr p) => matches re p x | Some _ => false end &&
       match mget s "format" with None => true | Some (JStr f) => fmt f x | Some _ => false end)%bool
  | _ => true
  end.
Definition kw_number (s : gomap json) (d : json) : bool :=
  match d with
  | JNum x => match mget s "minimum" with None => true | Some (JNum b) => Qle_bool b x | Some _ => false end
  | _ => true
  end.
Definition at_least (s : gomap json) (k : string) (n : nat) : bool :=
  match mget s k with None => true | Some (JNum b) => Qle_bool b (inject_Z (Z.of_nat n)) | Some _ => false end.
Section Sub.
  Variable re : string -> string -> bool.
  Variable v : json -> json -> bool.
  Fixpoint count_valid (l : list json) (d : json) : nat :=
    match l with [] => O | s :: r => if v s d then Datatypes.S (count_valid r d) else count_valid r d end.
  Definition kw_comb (s : gomap json) (d : json) : bool :=
    (match mget s "anyOf" with None => true | Some (JArr l) => existsb (fun x => v x d) l | Some _ => false end &&
     match mget s "oneOf" with None => true | Some (JArr l) => Nat.eqb (count_valid l d) 1 | Some _ => false end)%bool.
  (** items: one schema for all, or a list for the first ones and additionalItems for the others *)
  Fixpoint tuple_items (ss : list json) (add : option json) (l : list json) : bool :=
    match l with
    | [] => true
    | x :: l' =>
        match ss with
        | [] => match add with None => true | Some a => forallb (v a) l end
        | s :: ss' => (v s x && tuple_items ss' add l')%bool
        end
    end.
  Definition kw_array (s : gomap json) (d : json) : bool :=
    match d with
    | JArr l =>
        (match mget s "items" with
         | None => true
         | Some (JArr ss) => tuple_items ss (mget s "additionalItems") l
         | Some i => forallb (v i) l
         end &&
         match mget s "contains" with None => true | Some c => existsb (v c) l end &&
         at_least s "minItems" (List.length l) &&
         match mget s "uniqueItems" with Some (JBool true) => all_distinct l | None | Some (JBool false) => true | Some _ => false end)%bool
    | _ => true
    end.
  Definition obj_members (o : option json) : gomap json := match o with Some (JObj m) => m | _ => [] end.
  (** a member: its schema in "properties", the schemas of the matching patterns, additionalProperties when there is none *)
  Definition member_ok (props pats : gomap json) (add : option json) (k : string) (x : json) : bool :=
    let ps := filter (fun p => matches re (fst p) k) pats in
    (match mget props k with Some s => v s x | None => true end &&
     forallb (fun p => v (snd p) x) ps &&
     match mget props k, ps, add with
     | None, [], Some a => v a x
     | _, _, _ => true
     end)%bool.
  Definition kw_object (s : gomap json) (d : json) : bool :=
    match d with
    | JObj m =>
        (match mget s "required" with
         | None => true
         | Some (JArr ks) => forallb (fun k => match k with JStr k => mhas m k | _ => false end) ks
         | Some _ => false
         end &&
         at_least s "minProperties" (List.length m) &&
         forallb (fun kv => member_ok (obj_members (mget s "properties")) (obj_members (mget s "patternProperties"))
                                      (mget s "additionalProperties") (fst kv) (snd kv)) m)%bool
    | _ => true
    end.
End Sub.

(** ** Validation.  References are followed at most [fuel] levels deep; how much is needed is part of the theorems *)
Fixpoint follow (keys : list string) (s : json) : option json :=
  match keys with
  | [] => Some s
  | k :: r => match s with JObj m => match mget m k with Some x => follow r x | None => None end | _ => None end
  end.
Definition resolve (root : json) (r : string) : option json :=
  match r with
  | String "#"%char EmptyString => Some root
  | String "#"%char (String "/"%char p) => follow (split_on "/" p) root
  | _ => None
  end.
Section Eval.
  Variable re fmt : string -> string -> bool.
  Variable ext : string -> json -> bool.
  Variable root : json.
  Fixpoint ev (fuel : nat) (s d : json) {struct fuel} : bool :=
    match fuel with
    | O => false
    | Datatypes.S n =>
        match s with
        | JBool b => b
        | JObj m =>
            match mget m "$ref" with
            | Some (JStr r) => match resolve root r with Some s' => ev n s' d | None => ext r d end
            | Some _ => false
            | None => (kw_type m d && kw_const m d && kw_enum m d && kw_string re fmt m d && kw_number m d &&
                       kw_comb (ev n) m d && kw_array (ev n) m d && kw_object re (ev n) m d)%bool
            end
        | _ => false
        end
    end.
End Eval.
(** nesting of a document *)
Fixpoint depth (d : json) : nat :=
  match d with
  | JArr l => Datatypes.S (fold_right Nat.max O (map depth l))
  | JObj m => Datatypes.S (fold_right Nat.max O (map (fun kv => depth (snd kv)) m))
  | _ => O
  end.
(** gojsonschema.Validate *)
Definition js_valid (re fmt : string -> string -> bool) (ext : string -> json -> bool) (root d : json) : bool :=
  ev re fmt ext root (20 + 10 * depth d) root d.
