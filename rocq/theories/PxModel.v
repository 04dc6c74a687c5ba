(** Model of limited disclosure of credentials that are not SD-JWTs: presexch/definition.go:1024-1130 limitDisclosure,
    1244-1260 copyOnlySubjectIDs, 1267-1323 createNewCredential, 1366-1431 enhanceRevealDoc and
    enhanceRevealField, util/json/json.go:131-139 Select.
    JSON texts are JSON values.  Oracles: [jp] (ParsePaths and EvalPathsInReader of the jsonpath library: the key lists
    of all matches of the paths, in the order of the document).
    gjson 1.14 and sjson 1.1 (not in the sandbox) are modelled from their documented behaviour for paths whose steps are plain
    names and decimal indexes; escapes, modifiers and queries are not. *)
From Verif Require Import GoBase PexSpec PexModel PexLimit StatusModel PxSpec JwtSpec DiSpec VcSpec JwtModel SdSpec SdModel SdParse DiModel
  VcModel VcJwt VcParse VcSign ResSpec ResModel BbsModel.


(** ** gjson, sjson *)
(** gjson parseUint of an array index *)
Definition gj_index (p : string) : option nat :=
  match p with EmptyString => None | _ => match digits_val 0 p with Some z => Some (Z.to_nat z) | None => None end end.
(** gjson.Get(doc, "a.b.c") *)
Fixpoint gj_get (parts : list string) (doc : json) : option json :=
  match parts with
  | [] => Some doc
  | p :: rest =>
      match doc with
      | JObj m => match mget m p with Some x => gj_get rest x | None => None end
      | JArr l => match gj_index p with
                  | Some n => match nth_error l n with Some x => gj_get rest x | None => None end
                  | None => None
                  end
      | _ => None
      end
  end.
(** gjson.Get(doc, path).Value(): nil when there is none *)
Definition gj_value (doc : json) (path : string) : json :=
  match gj_get (split_on "." path) doc with Some v => v | None => JNull end.
(** sjson appendBuild: the value of a position that does not exist yet *)
Fixpoint sj_build (parts : list string) (v : json) : json :=
  match parts with
  | [] => v
  | p :: rest =>
      match digits_val 0 p with
      | Some z => JArr (repeat JNull (Z.to_nat z) ++ [sj_build rest v])
      | None => if String.eqb p "-1" then JArr [sj_build rest v] else JObj [(p, sj_build rest v)]
      end
  end.
Fixpoint list_set {A} (l : list A) (n : nat) (x : A) : list A :=
  match l, n with
  | [], _ => []
  | _ :: l', O => x :: l'
  | y :: l', Datatypes.S n' => y :: list_set l' n' x
  end.
(** sjson appendRawPaths: a scalar on the way is replaced, arrays are padded with null *)
Fixpoint sj_put (parts : list string) (doc : json) (v : json) : res json :=
  match parts with
  | [] => Ok v
  | p :: rest =>
      match doc with
      | JObj m =>
          match mget m p with
          | Some x => let* y := sj_put rest x v in Ok (JObj (mset m p y))
          | None => Ok (JObj ((p, sj_build rest v) :: m))
          end
      | JArr l =>
          match gj_index p with
          | Some n =>
              match nth_error l n with
              | Some x => let* y := sj_put rest x v in Ok (JArr (list_set l n y))
              | None => Ok (JArr (l ++ repeat JNull (n - List.length l) ++ [sj_build rest v]))
              end
          | None => if (String.eqb p "" || String.eqb p "-1")%bool then Ok (JArr (l ++ [sj_build rest v]))
                    else Err "cannot set array element for non-numeric key"
          end
      | _ => Ok (sj_build (p :: rest) v)
      end
  end.
Definition wild (c : ascii) : bool := existsb (Ascii.eqb c) ["*";"?";"#"]%char.
(** sjson.SetBytes(doc, path, v) *)
Definition sj_set (path : string) (doc : json) (v : json) : res json :=
  if String.eqb path "" then Err "path cannot be empty"
  else if existsb wild (list_ascii_of_string path) then Err "wildcard characters not allowed in path"
  else sj_put (split_on "." path) doc v.

(** ** The template *)
(** util/json/json.go:131-139 Select: a missing member becomes null *)
Definition select_obj (m : gomap json) (ks : list string) : gomap json :=
  fold_left (fun acc k => mset acc k (get_any m k)) ks [].
(** definition.go:1244-1260 copyOnlySubjectIDs; a nil slice marshals to null *)
Definition only_id (s : subject) : json := JObj (subject_to {| sj_id := sj_id s; sj_custom := [] |}).
Definition copy_subject_ids (l : list subject) : json :=
  match l with
  | [] => JNull
  | [s] => match sj_custom s with [] => JStr (sj_id s) | _ => only_id s end
  | _ => JArr (map only_id l)
  end.
(** 1074-1087 *)
Definition template (raw : gomap json) (subs : list subject) : json :=
  JObj (mset (select_obj raw ["id"; "type"; "@context"; "issuer"; "issuanceDate"]) "credentialSubject" (copy_subject_ids subs)).

(** ** createNewCredential *)
Section Cut.
  Variable jp : list string -> json -> res (list (list pkey)).
  (** 1337-1364 compactArrayPaths: (newPath, oldPath); the counters are fresh for every field *)
  Definition field_paths (src : json) (f : cfield) : res (list (string * string)) :=
    let* rs := jp (cf_paths f) src in Ok (compact_paths rs []).
  (** 1283-1302: the paths of one field *)
  Definition skipped (p : string * string) : bool := PexModel.contains "credentialSchema" (fst p).
  Fixpoint cut_paths (pred : bool) (src lim : json) (ps : list (string * string)) : res json :=
    match ps with
    | [] => Ok lim
    | p :: rest =>
        if skipped p then cut_paths pred src lim rest
        else let* lim' := sj_set (fst p) lim (if pred then JBool true else gj_value src (snd p)) in
             cut_paths pred src lim' rest
    end.
  (** 1277-1305 *)
  Fixpoint cut_fields (src lim : json) (fs : list cfield) : res json :=
    match fs with
    | [] => Ok lim
    | f :: rest =>
        let* ps := field_paths src f in
        let* lim' := cut_paths (cf_pred f) src lim ps in
        cut_fields src lim' rest
    end.
  (** 1289-1291 modifiedByPredicate *)
  Definition by_predicate (src : json) (fs : list cfield) : bool :=
    existsb (fun f => (cf_pred f && match field_paths src f with Ok ps => existsb (fun p => negb (skipped p)) ps | _ => false end)%bool) fs.
  (** 1295-1298 explicitPaths: a set (its iteration order is a parameter below) *)
  Definition add_once (s : string) (l : list string) : list string := if str_in s l then l else (l ++ [s])%list.
  Definition explicit_paths (src : json) (fs : list cfield) : list string :=
    fold_left (fun acc f => match field_paths src f with
      | Ok ps => fold_left (fun acc (p : string * string) => if skipped p then acc else add_once (fst (split_last (fst p))) acc) ps acc
      | _ => acc end) fs [].

  (** 1408-1431 enhanceRevealField *)
  Definition copy_special (path : string) (src : json) (doc : json) (cf : string) : res json :=
    match gj_value src (path ++ "." ++ cf) with
    | JNull => Ok doc
    | v => sj_set (path ++ "." ++ cf) doc v
    end.
  Definition enhance_field (path : string) (src : json) (doc : json) : res json :=
    let* d := sj_set (path ++ ".@explicit") doc (JBool true) in
    let* d := copy_special path src d "type" in
    copy_special path src d "@context".
  Fixpoint enhance_fields (paths : list string) (src doc : json) : res json :=
    match paths with
    | [] => Ok doc
    | p :: rest => let* d := enhance_field p src doc in enhance_fields rest src d
    end.
  (** 1381-1396: the proper prefixes of a path *)
  Fixpoint prefixes_from (acc : string) (parts : list string) : list string :=
    match parts with
    | [] => []
    | [_] => []
    | p :: rest => let a := if String.eqb acc "" then p else acc ++ "." ++ p in a :: prefixes_from a rest
    end.
  Definition interm_paths (explicit : list string) : list string :=
    fold_left (fun acc p => fold_left (fun acc q => if str_in q explicit then acc else add_once q acc)
                                      (prefixes_from "" (split_on "." p)) acc) explicit [].
  (** 1366-1406 enhanceRevealDoc; [ord]: the order in which Go iterates over a map *)
  Variable ord : list string -> list string.
  Definition enhance_doc (explicit : list string) (doc src : json) : res json :=
    let* d := sj_set "@explicit" doc (JBool true) in
    let* d := enhance_fields (ord explicit) src d in
    enhance_fields (ord (interm_paths explicit)) src d.
End Cut.

(** ** limitDisclosure *)
(** what filterConstraints hands over: the credential, its (displayed) JSON, and the constraints *)
Record climits := { cl_limit : bool; cl_fields : list cfield }.
Record fresult := { fr_cred : credential; fr_src : gomap json; fr_limits : option climits }.
Record wrapped := { wr_id : string; wr_cred : credential }.
(** 1433-1445 hasBBS *)
Definition has_bbs (v : credential) : bool :=
  existsb (fun p => match mget p "type" with Some (JStr t) => String.eqb t "BbsBlsSignature2020" | _ => false end) (cr_proofs v).
(** 1447-1454 *)
Definition is_sd (v : credential) : bool := match vc_sdalg (cr_contents v) with Some _ => true | None => false end.
(** 924-937 subjectIsIssuer on the parsed contents (getSubjectIDs 912-918) *)
Definition issuer_is_subject (v : credential) : bool :=
  match vc_issuer (cr_contents v) with
  | None => false
  | Some i => existsb (fun s => (negb (String.eqb (sj_id s) "") && String.eqb (sj_id s) (is_id i))%bool) (vc_subject (cr_contents v))
  end.
Section Limit.
  Variable jp : list string -> json -> res (list (list pkey)).
  Variable ord : list string -> list string.
  Variable E : venv.
  Variable D : senv.
  Variable txt : json -> string.                                          (* json.Marshal *)
  Variable disclose : credential -> gomap json -> string -> res credential. (* GenerateBBSSelectiveDisclosure with its options *)
  Variable limit_sd : climits -> gomap json -> credential -> res credential. (* getLimitedDisclosures, SetSDJWTDisclosures *)
  Variable nonce uuid : string.                                            (* uuid.New() *)
  Variable o : copts.

  (** 1267-1323 createNewCredential *)
  Definition create_new (c : climits) (src lim : json) (v : credential) : res credential :=
    let bbs := (has_bbs v && cl_limit c)%bool in
    let* doc := cut_fields jp src lim (cl_fields c) in
    if (negb bbs || by_predicate jp src (cl_fields c))%bool then parse_credential E (no_proof_check o) (txt doc)
    else
      let* d := enhance_doc ord (explicit_paths jp src (cl_fields c)) doc src in
      match d with
      | JObj frame => disclose v frame nonce
      | _ => Err "json: cannot unmarshal"
      end.
  (** 1029-1127: one filter result *)
  Definition limit_one (r : fresult) : res (list wrapped) :=
    let v := fr_cred r in
    match fr_limits r with
    | None => Ok [{| wr_id := vc_id (cr_contents v); wr_cred := v |}]
    | Some c =>
        let pred := existsb cf_pred (cl_fields c) in
        if (cl_limit c && negb (pred || is_sd v || has_bbs v || issuer_is_subject v))%bool then Ok []
        else
          let* p :=
            if ((cl_limit c || pred) && negb (is_sd v))%bool then
              let lim := if cl_limit c then template (to_raw_json v) (vc_subject (cr_contents v)) else JObj (fr_src r) in
              let* n := create_new c (JObj (fr_src r)) lim v in
              let* n := match cr_jwt v with Some _ => create_unsecured_jwt D n false | None => Ok n end in
              Ok (n, vc_id (cr_contents v) ++ "tmp_unique_id_" ++ uuid)
            else Ok (v, vc_id (cr_contents v)) in
          let* n := if (cl_limit c && is_sd v)%bool then limit_sd c (fr_src r) (fst p) else Ok (fst p) in
          Ok [{| wr_id := snd p; wr_cred := n |}]
    end.
  (** 1024-1130 limitDisclosure *)
  Definition limit_disclosure (rs : list fresult) : res (list wrapped) :=
    rmap (@List.concat wrapped) (map_res limit_one rs).
End Limit.
