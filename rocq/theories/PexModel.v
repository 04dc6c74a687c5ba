(** Model of the filters, merge and Match of presexch (definition.go, api.go). *)
From Verif Require Import GoBase PexSpec.
From Verif Require Import StatusModel.

(** ** Formats: definition.go:1758-1849 *)

(** definition.go:1437-1445 hasProofWithType *)
Definition has_proof_with_type (c : cred) (t : string) : bool :=
  existsb (fun p => match p with Some (JStr t') => String.eqb t' t | _ => false end) (c_proof_types c).
(** definition.go:1837-1849 credByProof *)
Definition cred_by_proof (c : cred) (ldp : option (list string)) : bool :=
  match ldp with None => false | Some l => existsb (has_proof_with_type c) l end.
(** definition.go:1823-1835 algMatch *)
Definition alg_match (a : string) (jwt : option (list string)) : bool :=
  match jwt with None => false | Some l => existsb (equal_fold a) l end.

Record buckets := { b_ldp : list cred; b_ldpvc : list cred; b_ldpvp : list cred;
                    b_jwt : list cred; b_jwtvc : list cred; b_jwtvp : list cred }.
Definition app_if (b : bool) (l : list cred) (c : cred) : list cred := if b then (l ++ [c])%list else l.
(** definition.go:1761-1795: one turn of the loop. *)
Definition format_step (f : pformat) (b : buckets) (c : cred) : buckets :=
  let alg := if c_jwt c then c_alg c else None in
  let am o := match alg with Some a => alg_match a o | None => false end in
  {| b_ldp := app_if (cred_by_proof c (f_ldp f)) (b_ldp b) c;
     b_ldpvc := app_if (cred_by_proof c (f_ldp_vc f)) (b_ldpvc b) c;
     b_ldpvp := app_if (cred_by_proof c (f_ldp_vp f)) (b_ldpvp b) c;
     b_jwt := app_if (am (f_jwt f)) (b_jwt b) c;
     b_jwtvc := app_if (am (f_jwt_vc f)) (b_jwtvc b) c;
     b_jwtvp := app_if (am (f_jwt_vp f)) (b_jwtvp b) c |}.
Definition no_buckets : buckets := {| b_ldp := []; b_ldpvc := []; b_ldpvp := []; b_jwt := []; b_jwtvc := []; b_jwtvp := [] |}.
Definition is_nil {A} (l : list A) : bool := match l with [] => true | _ => false end.
(** definition.go:1758-1821 filterFormat *)
Definition filter_format (f : pformat) (creds : list cred) : string * list cred :=
  let b := fold_left (format_step f) creds no_buckets in
  if negb (is_nil (b_ldp b)) then ("ldp", b_ldp b)
  else if negb (is_nil (b_ldpvc b)) then ("ldp_vc", b_ldpvc b)
  else if negb (is_nil (b_ldpvp b)) then ("ldp_vp", b_ldpvp b)
  else if negb (is_nil (b_jwt b)) then ("jwt", b_jwt b)
  else if negb (is_nil (b_jwtvc b)) then ("jwt_vc", b_jwtvc b)
  else if negb (is_nil (b_jwtvp b)) then ("jwt_vp", b_jwtvp b)
  else ("", []).

(** ** Schemas: definition.go:1852-1902 filterSchema.
    [load] is getContext (document loader), [type_ids] typeFoundInContext (None: error, skipped). *)
Section Schema.
  Variable ctx : Type.
  Variable load : string -> res ctx.
  Variable type_ids : ctx -> string -> option (list string).

  (** definition.go:1872-1881 *)
  Definition ids_of_types (c : ctx) (types : list string) : list string :=
    List.concat (map (fun t => match type_ids c t with Some l => l | None => [] end) types).

  (** definition.go:1862-1882, with the contexts cache. *)
  Fixpoint satisfied_ids (cache : gomap ctx) (ctxs types : list string) : res (gomap ctx * list string) :=
    match ctxs with
    | [] => Ok (cache, [])
    | x :: xs =>
        let* p := match mget cache x with
                  | Some c => Ok (c, cache)
                  | None => let* c := load x in Ok (c, mset cache x c)
                  end in
        let* q := satisfied_ids (snd p) xs types in
        Ok (fst q, (ids_of_types (fst p) types ++ snd q)%list)
    end.

  (** definition.go:1884-1894 *)
  Fixpoint schemas_applicable (ids : list string) (l : list schema) (acc : bool) : bool :=
    match l with
    | [] => acc
    | s :: ss => if str_in (sc_uri s) ids then schemas_applicable ids ss true
                 else if sc_required s then false
                 else schemas_applicable ids ss acc
    end.

  Fixpoint filter_schema_loop (schemas : list schema) (cache : gomap ctx) (creds : list cred) : res (list cred) :=
    match creds with
    | [] => Ok []
    | c :: cs =>
        let* p := satisfied_ids cache (c_contexts c) (c_types c) in
        let* rest := filter_schema_loop schemas (fst p) cs in
        Ok (if schemas_applicable (snd p) schemas false then c :: rest else rest)
    end.
  Definition filter_schema (schemas : list schema) (creds : list cred) : res (list cred) :=
    filter_schema_loop schemas [] creds.
End Schema.

(** ** Constraints: definition.go:875-1030, 1456-1660.
    Oracles: [jp_parse] (JSONPath parser and evaluator), [validate] (JSON schema validator),
    [rfc3339] (time.Parse), [order] (iteration order of the [replacements] map literal). *)

(** [strings.Replace(s, old, new, 1)] for non-empty [old]. *)
Fixpoint replace_first (old new s : string) : string :=
  if has_prefix old s then new ++ substring (String.length old) (String.length s) s
  else match s with EmptyString => EmptyString | String c s' => String c (replace_first old new s') end.
(** [strings.Contains(s, sub)] *)
Fixpoint contains (sub s : string) : bool :=
  has_prefix sub s || match s with EmptyString => false | String _ s' => contains sub s' end.

(** definition.go:1490-1510 convertToRFC9535Format; [first] tells whether i = 0. *)
Fixpoint rfc9535_segments (first : bool) (segs : list string) : string :=
  match segs with
  | [] => ""
  | s :: ss =>
      (if (contains "-" s && negb (contains "['" s))%bool then "['" ++ s ++ "']"
       else (if first then s else "." ++ s)) ++ rfc9535_segments false ss
  end.
Definition convert_rfc9535 (path : string) : string := rfc9535_segments true (split_on "." path).

Definition replacements : list (string * string) := [("$.vc.", "$."); ("$.vc[", "$["); ("$['vc']", "$")].
Definition apply_replacements (order : list (string * string)) (path : string) : string :=
  fold_left (fun p r => replace_first (fst r) (snd r) p) order path.

(** Error tags: identity of errPathNotApplicable is what callers test. *)
Definition err_na : string := "errPathNotApplicable".
Definition err_hard : string := "path error".

Section Constraints.
  Variable jp_parse : string -> option (json -> list json).
  Variable validate : jschema -> json -> bool.
  Variable rfc3339 : string -> option Z.
  Variable order : list (string * string).

  (** definition.go:1521-1544: path rewriting for JWT credentials. *)
  Definition jwt_path (doc : gomap json) (path : string) : string :=
    let path := apply_replacements order path in
    if equal_fold path "$.issuer" then
      match mget doc "issuer" with
      | Some (JObj m) => if mhas m "id" then "$.issuer.id" else path
      | _ => path
      end
    else path.

  (** definition.go:1550-1576 *)
  Definition parse_path (path : string) : option (json -> list json) :=
    match jp_parse path with
    | Some s => Some s
    | None => jp_parse (convert_rfc9535 path)
    end.

  (** definition.go:1646-1660 isDateField *)
  Definition is_date_field (paths : list string) : bool :=
    existsb (fun p => existsb (fun k => contains k p) [".expirationDate"; ".issuanceDate"; ".validFrom"; ".validUntil"]) paths.

  (** definition.go:1456-1472: filter preparation; [*filter.Type] panics on a nil type. *)
  Definition prepare_filter (f : jfilter) : res jfilter :=
    match ft_type f with
    | None => Panic
    | Some t =>
        if (String.eqb t "string" && String.eqb (ft_format f) "date-time")%bool then
          match ft_min f with
          | Some (JStr v) =>
              if String.eqb v "" then Ok f
              else match rfc3339 v with
                   | Some z => Ok {| ft_type := Some "number"; ft_format := ""; ft_min := Some (jnum z);
                                     ft_rest := ft_rest f; ft_allof := ft_allof f |}
                   | None => Ok f
                   end
          | _ => Ok f
          end
        else Ok f
    end.

  (** definition.go:1605-1644 validatePath *)
  Definition validate_path (schema : option jfilter) (v : json) (fd : field) (jwt : bool) : res unit :=
    match schema with
    | None => Ok tt
    | Some base =>
        let v := if (jwt && is_date_field (fd_paths fd))%bool then
                   match v with JStr s => match rfc3339 s with Some z => jnum z | None => v end | _ => v end
                 else v in
        let all := match fd_filter fd with Some f => map SAllOf (ft_allof f) | None => [] end in
        let schemas := match all with [] => [SBase base] | _ => all end in
        guard (forallb (fun s => validate s v) schemas) err_na
    end.

  (** definition.go:1513-1603 checkPathValue *)
  Definition check_path_value (jwt : bool) (path : string) (doc : gomap json) (fd : field) (schema : option jfilter) : res unit :=
    let path := if jwt then jwt_path doc path else path in
    if (negb (has_prefix "$" path) && negb (has_prefix path "@"))%bool then Err err_hard
    else match parse_path path with
         | None => Err err_hard
         | Some sel =>
             match sel (JObj doc) with
             | [] => if fd_optional fd then Ok tt else Err err_na
             | [v] => validate_path schema v fd jwt
             | vs => validate_path schema (JArr vs) fd jwt
             end
         end.

  (** definition.go:1476-1488: the loop over paths; the joined error is errPathNotApplicable when any
      part is.  (The code evaluates a failing path twice; the model evaluates once.) *)
  Fixpoint try_paths (jwt : bool) (paths : list string) (doc : gomap json) (fd : field) (schema : option jfilter)
    (last : option string) : res unit :=
    match paths with
    | [] => match last with None => Ok tt | Some e => Err e end
    | p :: ps =>
        match check_path_value jwt p doc fd schema with
        | Ok _ => Ok tt
        | Panic => Panic
        | Err e => try_paths jwt ps doc fd schema
                     (Some (match last with Some l => if String.eqb l err_na then err_na else e | None => e end))
        end
    end.
  (** definition.go:1456-1488 filterField *)
  Definition filter_field (fd : field) (doc : gomap json) (jwt : bool) : res unit :=
    match fd_filter fd with
    | None => try_paths jwt (fd_paths fd) doc fd None None
    | Some f => let* f' := prepare_filter f in try_paths jwt (fd_paths fd) doc fd (Some f') None
    end.

  (** definition.go:922-937 subjectIsIssuer *)
  Definition subject_is_issuer (c : cred) : bool :=
    match c_issuer c with
    | None => false
    | Some i => existsb (fun s => negb (String.eqb s "") && String.eqb s i) (c_subject_ids c)
    end.

  (** definition.go:990-1006: the loop over fields. *)
  Fixpoint fields_applicable (fields : list field) (doc : gomap json) (jwt : bool) (acc : bool) : res bool :=
    match fields with
    | [] => Ok acc
    | f :: fs =>
        match filter_field f doc jwt with
        | Ok _ => fields_applicable fs doc jwt true
        | Err e => if String.eqb e err_na then Ok false else Err e
        | Panic => Panic
        end
    end.

  (** definition.go:939-1022 filterConstraints (the debug output is dropped). *)
  Fixpoint filter_constraints_loop (cs : constraints) (creds : list cred) : res (list cred) :=
    match creds with
    | [] => Ok []
    | c :: rest =>
        if (cs_subject_is_issuer cs && negb (subject_is_issuer c))%bool then filter_constraints_loop cs rest
        else match c_src c with
             | None => filter_constraints_loop cs rest
             | Some doc =>
                 let* ok := fields_applicable (cs_fields cs) doc (c_jwt c) false in
                 let* r := filter_constraints_loop cs rest in
                 Ok (if ok then c :: r else r)
             end
    end.
  Definition filter_constraints (o : option constraints) (creds : list cred) : res (list cred) :=
    match o with None => Ok creds | Some cs => filter_constraints_loop cs creds end.
End Constraints.

(** ** Merge: definition.go:1683-1749 *)

(** [strconv.Itoa] / [%d] for a non-negative int. *)
Definition dec_digit (n : N) : ascii := ascii_of_N (48 + n).
Fixpoint itoa_fuel (fuel : nat) (n : N) (acc : string) : string :=
  match fuel with
  | O => acc
  | S f => let acc := String (dec_digit (n mod 10)) acc in
           if (n / 10 =? 0)%N then acc else itoa_fuel f (n / 10) acc
  end.
Definition itoa (n : nat) : string := itoa_fuel (S n) (N.of_nat n) "".

(** [sort.Strings]: insertion sort by byte order (the result of any sorting of distinct keys). *)
Fixpoint insert_sorted (k : string) (l : list string) : list string :=
  match l with [] => [k] | x :: xs => if String.leb k x then k :: l else x :: insert_sorted k xs end.
Definition sort_strings (l : list string) : list string := fold_right insert_sorted [] l.

Record merge_state := { ms_index : gomap nat; ms_result : list cred; ms_descs : list mapping }.

(** definition.go:1709-1740: one credential of one descriptor. *)
Definition merge_step (fmt : string) (separate : bool) (descriptor : string) (st : merge_state) (cw : credw) : merge_state :=
  let jwt_vp := if String.eqb fmt "jwt_vp" then ".vp" else "" in
  let '(idx, res) := if mhas (ms_index st) (cw_uid cw) then (ms_index st, ms_result st)
                     else (mset (ms_index st) (cw_uid cw) (List.length (ms_result st)), (ms_result st ++ [cw_vc cw])%list) in
  let i := match mget idx (cw_uid cw) with Some i => i | None => 0%nat end in
  let vc_fmt := if c_jwt (cw_vc cw) then "jwt_vc" else "ldp_vc" in
  let desc :=
    if separate then
      Mapping descriptor fmt ("$[" ++ itoa i ++ "]")
        (Some (Mapping descriptor vc_fmt ("$" ++ jwt_vp ++ ".verifiableCredential[0]") None))
    else
      Mapping descriptor fmt "$"
        (Some (Mapping descriptor vc_fmt ("$" ++ jwt_vp ++ ".verifiableCredential[" ++ itoa i ++ "]") None)) in
  {| ms_index := idx; ms_result := res; ms_descs := (ms_descs st ++ [desc])%list |}.

Definition merge_descriptor (fmt : string) (separate : bool) (table : gomap (list credw)) (st : merge_state) (d : string) : merge_state :=
  fold_left (merge_step fmt separate d) (match mget table d with Some l => l | None => [] end) st.
(** definition.go:1683-1745.  The final [sort.Sort(byID)] (1743) permutes [ms_descs]; it is unstable, so the
    theorems speak about every permutation. *)
Definition merge (fmt : string) (table : gomap (list credw)) (separate : bool) : list cred * list mapping :=
  let st := fold_left (merge_descriptor fmt separate table) (sort_strings (mkeys table))
              {| ms_index := []; ms_result := []; ms_descs := [] |} in
  (ms_result st, ms_descs st).

(** ** Array path compaction: definition.go:1667-1681 getPath *)
Definition key_str (k : pkey) : string := match k with KIdx n => itoa n | KName s => s end.
Definition counter (set : gomap nat) (k : string) : nat := match mget set k with Some n => n | None => 0%nat end.
Fixpoint get_path_loop (keys : list pkey) (orig new : list string) (set : gomap nat) : gomap nat * list string * list string :=
  match keys with
  | [] => (set, orig, new)
  | KName s :: ks => get_path_loop ks (orig ++ [s])%list (new ++ [s])%list set
  | KIdx v :: ks =>
      let counter_key := String.concat "." orig in
      let orig := (orig ++ [itoa v])%list in
      let mapper_key := String.concat "." orig in
      let set := if mhas set mapper_key then set
                 else let set := mset set mapper_key (counter set counter_key) in
                      mset set counter_key (S (counter set counter_key)) in
      get_path_loop ks orig (new ++ [itoa (counter set mapper_key)])%list set
  end.
(** Result: (newPath, oldPath) of each evaluated key list, threading [set] (definition.go:1347-1361). *)
Fixpoint compact_paths (results : list (list pkey)) (set : gomap nat) : list (string * string) :=
  match results with
  | [] => []
  | ks :: rest =>
      let '(set, orig, new) := get_path_loop ks [] [] set in
      (String.concat "." new, String.concat "." orig) :: compact_paths rest set
  end.

(** ** Match: api.go:116-332 *)

(** api.go:442-461 rootIndex *)
Definition root_index (path : string) : Z :=
  if negb (has_prefix "$[" path) then -1
  else match split_on "]" (substring 2 (String.length path) path) with
       | [] => -1
       | p :: _ => if String.eqb p "" then -1 else match atoi p with Ok z => z | _ => -1 end
       end.
(** api.go:424-440 presentationIndex *)
Fixpoint presentation_index (m : mapping) : Z :=
  let '(Mapping _ _ path nested) := m in
  let idx := root_index path in
  if negb (idx =? -1) then idx
  else if String.eqb path "$" then match nested with Some n => presentation_index n | None => 0 end
  else 0.
(** api.go:400-410 descriptorMappingExpectsVPList *)
Fixpoint expects_vp_list (m : mapping) : bool :=
  let '(Mapping _ _ path nested) := m in
  if has_prefix "$[" path then true
  else match nested with None => false | Some n => expects_vp_list n end.

Record descriptor := { d_id : string; d_schema : list schema; d_constraints : option constraints }.
(** Where a credential is selected from. *)
Inductive root := RootVP (i : nat) | RootList (upto : nat).

(** A submitted presentation: its id, whether the context/type check passes (api.go:334-348) and its own
    descriptor map; [None] in a map is a JSON null entry (a nil *InputDescriptorMapping). *)
Record vp := { vp_id : string; vp_context_ok : bool; vp_map : res (list (option mapping)) }.
Record match_value := { mv_pres : string; mv_cred : cred; mv_desc : string }.

Section Match.
  Variable select : root -> mapping -> res cred.                          (* selectVC, api.go:257-302 *)
  Variable f_schema : list schema -> list cred -> res (list cred).        (* filterSchema *)
  Variable f_constraints : option constraints -> list cred -> res (list cred). (* filterConstraints *)
  Variable disable_schema : bool.
  Variable descs : list descriptor.
  Variable nvps : nat.
  Variable merged : option (list (option mapping)).

  (** api.go:322-332 inputDescriptor *)
  Definition input_descriptor (id : string) : option descriptor := find (fun d => String.eqb (d_id d) id) descs.

  Inductive step_result := Stop (r : res (list match_value)) | Go (v : match_value).
  (** api.go:193-251: one mapping. *)
  Definition match_mapping (vp_idx : nat) (pres_id : string) (om : option mapping) : step_result :=
    match om with
    | None => Stop Panic
    | Some m =>
        match input_descriptor (m_id m) with
        | None => Stop (Err "unknown descriptor id")
        | Some d =>
            let sel :=
              if expects_vp_list m then Some (select (RootList vp_idx) m)
              else if (Nat.eqb nvps 1 || match merged with None => true | Some _ => false end)%bool
                   then Some (select (RootVP vp_idx) m)
              else None in
            match sel with
            | None => Stop (Err "invalid path")
            | Some Panic => Stop Panic
            | Some (Err e) => Stop (Err e)
            | Some (Ok vc) =>
                match f_schema (d_schema d) [vc] with
                | Panic => Stop Panic
                | Err _ => Stop (Ok [])                     (* api.go:221-223: returns nil, err with err == nil *)
                | Ok passed =>
                    if (is_nil passed && negb disable_schema)%bool then Stop (Err "schema mismatch")
                    else match f_constraints (d_constraints d) [vc] with
                         | Panic => Stop Panic
                         | Err e => Stop (Err e)
                         | Ok [c] => Go {| mv_pres := pres_id; mv_cred := c; mv_desc := m_id m |}
                         | Ok _ => Stop (Err "requires exactly 1 credential")
                         end
                end
            end
        end
    end.
  Fixpoint match_mappings (vp_idx : nat) (pres_id : string) (l : list (option mapping)) (acc : list match_value)
    : step_result + list match_value :=
    match l with
    | [] => inr acc
    | om :: rest =>
        match match_mapping vp_idx pres_id om with
        | Go v => match_mappings vp_idx pres_id rest (acc ++ [v])%list
        | s => inl s
        end
    end.

  (** api.go:412-422 descriptorsByPresentationIndex: the mappings of VP [i] (a nil entry has index 0). *)
  Definition mappings_of (l : list (option mapping)) (i : nat) : list (option mapping) :=
    filter (fun om => (match om with Some m => presentation_index m | None => 0 end) =? Z.of_nat i) l.

  (** api.go:168-254 *)
  Fixpoint matched_creds (vp_idx : nat) (vps : list vp) (acc : list match_value) : res (list match_value) :=
    match vps with
    | [] => Ok acc
    | v :: rest =>
        if negb (vp_context_ok v) then Err "context or type"
        else
          let* dm := match merged with
                     | Some l => Ok (mappings_of l vp_idx)
                     | None => vp_map v
                     end in
          match match_mappings vp_idx (vp_id v) dm acc with
          | inl (Stop r) => r
          | inl (Go _) => Panic                             (* not reachable *)
          | inr acc' => matched_creds (S vp_idx) rest acc'
          end
    end.

  (** api.go:305-320 evalSubmissionRequirements *)
  Definition eval_requirements (matched : list match_value) : bool :=
    forallb (fun d => existsb (fun m => String.eqb (mv_desc m) (d_id d)) matched) descs.

  (** api.go:116-139 Match *)
  Definition pex_match (vps : list vp) : res (list match_value) :=
    let* r := matched_creds 0 vps [] in
    if eval_requirements r then Ok r else Err "failed submission requirements".
End Match.
