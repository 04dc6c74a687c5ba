(** Model of how Match reads submissions: presexch/api.go:140-190 (submissions), 257-302 (selectVC), 334-398 (descriptor maps), 466-515.  The rest of Match
    is PexModel.pex_match; the presentations are those of VpModel.
    The path language (github.com/PaesslerAG/jsonpath with gval, not in the sandbox) is modelled for plain paths: "$" followed by names and indices; other
    texts go to the parameter [other]. *)
From Verif Require Import GoBase StatusModel JwtModel PexSpec PexModel VcModel VcParse VpModel.

(** ** Paths *)
Inductive jstep := Name (n : string) | Index (i : nat).
Definition letter (c : ascii) : bool := let n := N_of_ascii c in ((65 <=? n) && (n <=? 90) || (97 <=? n) && (n <=? 122) || (n =? 95))%N%bool.
Definition digit (c : ascii) : bool := let n := N_of_ascii c in ((48 <=? n) && (n <=? 57))%N%bool.
(** the longest prefix of such characters, and the rest *)
Fixpoint span (p : ascii -> bool) (s : string) : string * string :=
  match s with
  | EmptyString => ("", "")
  | String c s' => if p c then let r := span p s' in (String c (fst r), snd r) else ("", s)
  end.
Definition starts (p : ascii -> bool) (s : string) : bool := match s with String c _ => p c | EmptyString => false end.
(** a decimal numeral without leading zeros *)
Definition numeral (t : string) : option nat :=
  match atoi t with Ok z => let i := Z.to_nat z in if String.eqb (itoa i) t then Some i else None | _ => None end.
Fixpoint steps_of (fuel : nat) (s : string) : option (list jstep) :=
  match fuel with
  | O => None
  | Datatypes.S f =>
      match s with
      | EmptyString => Some []
      | String c r =>
          if Ascii.eqb c "." then
            let nr := span (fun c => letter c || digit c)%bool r in
            if starts letter (fst nr) then option_map (cons (Name (fst nr))) (steps_of f (snd nr)) else None
          else if Ascii.eqb c "[" then
            let nr := span digit r in
            match numeral (fst nr), snd nr with
            | Some i, String c' r' => if Ascii.eqb c' "]" then option_map (cons (Index i)) (steps_of f r') else None
            | _, _ => None
            end
          else None
      end
  end.
Definition plain_path (p : string) : option (list jstep) :=
  match p with String c r => if Ascii.eqb c "$" then steps_of (Datatypes.S (String.length r)) r else None | EmptyString => None end.

Section Paths.
  Variable other : string -> json -> res json.
  Variable float_text : nat -> string.                     (* how gval writes a number when it is the key of an object *)
  Definition walk1 (st : jstep) (j : json) : res json :=
    match st, j with
    | Name n, JObj m => match mget m n with Some v => Ok v | None => Err "unknown key" end
    | Index i, JObj m => match mget m (float_text i) with Some v => Ok v | None => Err "unknown key" end
    | Index i, JArr l => match nth_error l i with Some v => Ok v | None => Err "index out of range" end
    | _, _ => Err "could not select value"
    end.
  Fixpoint walk (l : list jstep) (j : json) : res json := match l with [] => Ok j | st :: l' => let* v := walk1 st j in walk l' v end.
  (** api.go:463-478 selectByPath *)
  Definition eval_path (p : string) (j : json) : res json := match plain_path p with Some l => walk l j | None => other p j end.
  (** 264-280: the path, then the path into a JWT presentation *)
  Definition select_step (p : string) (j : json) : res json :=
    match eval_path p j with
    | Err _ => eval_path (replace_first "$." "$.vp." p) j
    | r => r
    end.
  (** 282-285 *)
  Fixpoint select_value (m : mapping) (j : json) : res json :=
    let '(Mapping _ _ p nested) := m in
    let* v := select_step p j in
    match nested with Some n => select_value n v | None => Ok v end.
  (** 257-302 selectVC; [parse]: json.Marshal and ParseCredential with the options *)
  Definition select_vc (parse : json -> res cred) (j : json) (m : mapping) : res cred := let* v := select_value m j in parse v.
End Paths.

(** ** Descriptor maps *)
(** encoding/json: the members of InputDescriptorMapping (api.go:52-57), matched without regard to case; the members of a Go map are written in order of
    their names.  [cur]: the value decoded into *)
Fixpoint insert_member {A} (kv : string * A) (l : list (string * A)) : list (string * A) :=
  match l with [] => [kv] | x :: xs => if String.leb (fst kv) (fst x) then kv :: l else x :: insert_member kv xs end.
Definition sort_members {A} (l : list (string * A)) : list (string * A) := fold_right insert_member [] l.
Definition empty_mapping : mapping := Mapping "" "" "" None.
Definition text_into (j : json) (s : string) : res string := match j with JStr t => Ok t | JNull => Ok s | _ => Err "unmarshal descriptor map" end.
Definition member_into (k : string) (j : json) (dec : option mapping -> res (option mapping)) (m : mapping) : res mapping :=
  let '(Mapping id fmt path nested) := m in
  if equal_fold k "id" then rmap (fun s => Mapping s fmt path nested) (text_into j id)
  else if equal_fold k "format" then rmap (fun s => Mapping id s path nested) (text_into j fmt)
  else if equal_fold k "path" then rmap (fun s => Mapping id fmt s nested) (text_into j path)
  else if equal_fold k "path_nested" then rmap (Mapping id fmt path) (dec nested)
  else Ok m.
Definition members_into (l : list (string * (json * (option mapping -> res (option mapping))))) (m : mapping) : res mapping :=
  fold_left (fun acc kv => let* m := acc in member_into (fst kv) (fst (snd kv)) (snd (snd kv)) m) l (Ok m).
Fixpoint decode_mapping (j : json) (cur : option mapping) : res (option mapping) :=
  match j with
  | JNull => Ok None
  | JObj ms =>
      rmap Some (members_into (sort_members (map (fun kv => (fst kv, (snd kv, decode_mapping (snd kv)))) ms))
                              (match cur with Some m => m | None => empty_mapping end))
  | _ => Err "unmarshal descriptor map"
  end.
(** api.go:369-388 getDescriptorMapping *)
Definition descriptor_mapping (submission : gomap json) : res (list (option mapping)) :=
  match mget submission "descriptor_map" with
  | Some (JArr l) => map_res (fun j => decode_mapping j None) l
  | _ => Err "missing descriptor_map"
  end.
(** api.go:351-367 parseDescriptorMap; a submission put there as a Go value is its JSON form here *)
Definition parse_descriptor_map (p : presentation) : res (list (option mapping)) :=
  match mget (pr_custom p) "presentation_submission" with
  | Some (JObj m) => descriptor_mapping m
  | _ => Err "missing presentation_submission"
  end.
(** json.Marshal of PresentationSubmission and InputDescriptorMapping (api.go:31-57): empty members are left out *)
Fixpoint mapping_json (m : mapping) : json :=
  let '(Mapping id fmt path nested) := m in
  JObj ((if String.eqb id "" then [] else [("id", JStr id)]) ++ (if String.eqb fmt "" then [] else [("format", JStr fmt)]) ++
        (if String.eqb path "" then [] else [("path", JStr path)]) ++ match nested with Some n => [("path_nested", mapping_json n)] | None => [] end)%list.
Definition submission_json (id def : string) (l : list mapping) : json :=
  JObj ((if String.eqb id "" then [] else [("id", JStr id)]) ++ (if String.eqb def "" then [] else [("definition_id", JStr def)]) ++ [("descriptor_map", JArr (map mapping_json l))])%list.

(** ** Match on presentations *)
Definition credential_application_context : string := "https://identity.foundation/credential-manifest/application/v1".
(** api.go:334-349 checkJSONLDContextType *)
Definition context_type_ok (p : presentation) : bool :=
  ((str_in "https://identity.foundation/presentation-exchange/submission/v1" (pr_context p) || str_in credential_application_context (pr_context p)) &&
   (str_in "PresentationSubmission" (pr_types p) || str_in "CredentialApplication" (pr_types p)))%bool.
Section Match.
  Variable E : venv.
  Variable U : credential -> res json.                     (* Credential.ToUniversalForm *)
  Variable other : string -> json -> res json.
  Variable float_text : nat -> string.
  Variable parse : json -> res cred.
  (** api.go:490-515 getTypelessVP; MarshalJSON of a presentation without envelope: VpModel.pres_raw *)
  Definition typeless (p : presentation) : res json :=
    if is_jwt_vp p then
      let* tp := jwt_parse (ve_jwt E) (pr_jwt p) None false (fun _ => true) in
      Ok (JObj (match tk_payload (fst tp) with Some m => m | None => [] end))
    else match cwt_of p with
         | Some w => Ok (JObj (vw_map w))
         | None => rmap JObj (pres_raw U p)
         end.
  (** 164-170 rawVPs: those seen so far; the others are nil *)
  Definition raw_vps (ps : list presentation) (upto : nat) : json :=
    JArr (map (fun ip => if (fst ip <=? upto)%nat then match typeless (snd ip) with Ok j => j | _ => JNull end else JNull) (combine (seq 0 (List.length ps)) ps)).
  Definition select_in (ps : list presentation) (r : root) (m : mapping) : res cred :=
    match r with
    | RootVP i => match nth_error ps i with
                  | Some p => let* j := typeless p in select_vc other float_text parse j m
                  | None => Panic
                  end
    | RootList i => select_vc other float_text parse (raw_vps ps i) m
    end.
  (** what PexModel.pex_match sees of a presentation *)
  Definition seen (p : presentation) : vp :=
    {| vp_id := pr_id p; vp_context_ok := context_type_ok p && is_ok (typeless p); vp_map := parse_descriptor_map p |}.
  (** 150-165: the merged submission, as a Go value or as a map *)
  Inductive merged_submission := NoSubmission | Typed (l : list mapping) | Untyped (m : gomap json).
  Variable f_schema : list schema -> list cred -> res (list cred).
  Variable f_constraints : option constraints -> list cred -> res (list cred).
  Definition match_presentations (disable : bool) (descs : list descriptor) (sub : merged_submission) (ps : list presentation) : res (list match_value) :=
    let* merged := match sub with
                   | NoSubmission => Ok None
                   | Typed l => Ok (Some (map Some l))
                   | Untyped [] => Ok None
                   | Untyped m => rmap Some (descriptor_mapping m)
                   end in
    pex_match (select_in ps) f_schema f_constraints disable descs (List.length ps) merged (map seen ps).
End Match.
