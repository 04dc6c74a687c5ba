(** Data and specification vocabulary for presentation exchange filters, merging and Match (C12-C16, C41-C45). *)
From Verif Require Import GoBase.

(** A credential as the presexch package observes it. *)
Record cred := {
  c_id : string;                        (* Contents().ID *)
  c_issuer : option string;             (* Contents().Issuer.ID *)
  c_subject_ids : list string;          (* ids of Contents().Subject *)
  c_proof_types : list (option json);   (* proof["type"] of each proof *)
  c_jwt : bool;                         (* IsJWT() *)
  c_alg : option string;                (* JWTHeaders().Algorithm() *)
  c_contexts : list string;
  c_types : list string;
  c_src : option (gomap json)           (* JSON of the (fully disclosed) credential; None: cannot be produced *)
}.

(** Claim formats of a definition or descriptor. *)
Record pformat := {
  f_ldp : option (list string); f_ldp_vc : option (list string); f_ldp_vp : option (list string);
  f_jwt : option (list string); f_jwt_vc : option (list string); f_jwt_vp : option (list string) }.

(** "This credential carries a proof of one of these types" / "is a JWT signed with one of these algs". *)
Definition proof_allowed (c : cred) (o : option (list string)) : Prop :=
  exists l t, o = Some l /\ In t l /\ In (Some (JStr t)) (c_proof_types c).
Definition alg_allowed (c : cred) (o : option (list string)) : Prop :=
  exists l a b, o = Some l /\ c_jwt c = true /\ c_alg c = Some a /\ In b l /\ equal_fold a b = true.
(** The six formats in their fixed priority. *)
Definition format_priority (f : pformat) : list (string * (cred -> Prop)) :=
  [("ldp", fun c => proof_allowed c (f_ldp f)); ("ldp_vc", fun c => proof_allowed c (f_ldp_vc f));
   ("ldp_vp", fun c => proof_allowed c (f_ldp_vp f)); ("jwt", fun c => alg_allowed c (f_jwt f));
   ("jwt_vc", fun c => alg_allowed c (f_jwt_vc f)); ("jwt_vp", fun c => alg_allowed c (f_jwt_vp f))].
(** [l'] is the sublist of [l] of the elements satisfying [P], in order. *)
Inductive selects {A} (P : A -> Prop) : list A -> list A -> Prop :=
| sel_nil : selects P [] []
| sel_yes x l l' : P x -> selects P l l' -> selects P (x :: l) (x :: l')
| sel_no x l l' : ~ P x -> selects P l l' -> selects P (x :: l) l'.
(** The first format of the list that selects something. *)
Inductive first_format (creds : list cred) : list (string * (cred -> Prop)) -> string -> list cred -> Prop :=
| ff_none : first_format creds [] "" []
| ff_here n P rest l : selects P creds l -> l <> [] -> first_format creds ((n, P) :: rest) n l
| ff_next n P rest n' l : selects P creds [] -> first_format creds rest n' l -> first_format creds ((n, P) :: rest) n' l.

(** Schemas of a v1 input descriptor. *)
Record schema := { sc_uri : string; sc_required : bool }.

(** Field constraints.  A filter is its type, format, minimum, the rest of its JSON schema and allOf. *)
Record jfilter := { ft_type : option string; ft_format : string; ft_min : option json; ft_rest : json; ft_allof : list json }.
Inductive jschema := SBase (f : jfilter) | SAllOf (j : json).
Record field := { fd_paths : list string; fd_filter : option jfilter; fd_optional : bool }.
Record constraints := { cs_subject_is_issuer : bool; cs_limit : bool; cs_fields : list field }.

(** Descriptor mappings of a presentation submission. *)
Inductive mapping : Type := Mapping (id format path : string) (nested : option mapping).
Definition m_id (m : mapping) := let '(Mapping i _ _ _) := m in i.
Definition m_path (m : mapping) := let '(Mapping _ _ p _) := m in p.
Definition m_nested (m : mapping) := let '(Mapping _ _ _ n) := m in n.

Record credw := { cw_uid : string; cw_vc : cred }.

(** ** Field constraints, read directly.
    [jp_parse]: JSONPath parser/evaluator; [validate]: JSON schema validator; [rfc3339]: date parser;
    [rewrite]: compatibility rewriting of paths for JWT credentials; [alt]: alternative spelling tried
    when a path does not parse. *)
Section Fields.
  Variable jp_parse : string -> option (json -> list json).
  Variable validate : jschema -> json -> bool.
  Variable rfc3339 : string -> option Z.
  Variable rewrite : gomap json -> string -> string.
  Variable alt : string -> string.

  (** Dates are compared as Unix timestamps: a date-time [minimum] becomes a number. *)
  Definition dated_filter (f : jfilter) : jfilter :=
    match ft_type f, ft_min f with
    | Some "string", Some (JStr v) =>
        if String.eqb (ft_format f) "date-time" then
          match (if String.eqb v "" then None else rfc3339 v) with
          | Some z => {| ft_type := Some "number"; ft_format := ""; ft_min := Some (jnum z);
                         ft_rest := ft_rest f; ft_allof := ft_allof f |}
          | None => f
          end
        else f
    | _, _ => f
    end.
  Definition substring_of (k p : string) : Prop := exists a b, p = a ++ k ++ b.
  Definition date_path (p : string) : Prop :=
    exists k, In k [".expirationDate"; ".issuanceDate"; ".validFrom"; ".validUntil"] /\ substring_of k p.
  (** The value that is validated: dates of JWT credentials become Unix timestamps. *)
  Inductive dated_value (jwt : bool) (f : field) : json -> json -> Prop :=
  | dv_date s z : jwt = true -> (exists p, In p (fd_paths f) /\ date_path p) -> rfc3339 s = Some z ->
      dated_value jwt f (JStr s) (jnum z)
  | dv_same v : (jwt = false \/ ~ (exists p, In p (fd_paths f) /\ date_path p) \/
                 (forall s, v = JStr s -> rfc3339 s = None)) -> dated_value jwt f v v.

  Definition filter_accepts (jwt : bool) (f : field) (v : json) : Prop :=
    match fd_filter f with
    | None => True
    | Some ft => exists v', dated_value jwt f v v' /\ validate (SBase (dated_filter ft)) v' = true /\
                            forall s, In s (ft_allof ft) -> validate (SAllOf s) v' = true
    end.

  Definition rooted (p : string) : Prop := has_prefix "$" p = true \/ p = "" \/ p = "@".
  Definition selected (vs : list json) : json := match vs with [v] => v | _ => JArr vs end.
  (** A path holds for a document: it selects nothing and the field is optional, or what it selects
      passes the filter. *)
  Definition path_holds (jwt : bool) (doc : gomap json) (f : field) (p : string) : Prop :=
    let q := if jwt then rewrite doc p else p in
    rooted q /\
    exists sel, (jp_parse q = Some sel \/ (jp_parse q = None /\ jp_parse (alt q) = Some sel)) /\
      ((sel (JObj doc) = [] /\ fd_optional f = true) \/
       (sel (JObj doc) <> [] /\ filter_accepts jwt f (selected (sel (JObj doc))))).
  Definition field_holds (jwt : bool) (doc : gomap json) (f : field) : Prop :=
    exists p, In p (fd_paths f) /\ path_holds jwt doc f p.

  (** subject_is_issuer: some (non-empty) subject id is the issuer's id. *)
  Definition subject_issues (c : cred) : Prop :=
    exists i, c_issuer c = Some i /\ i <> "" /\ In i (c_subject_ids c).
  Definition cred_holds (cs : constraints) (c : cred) : Prop :=
    (cs_subject_is_issuer cs = true -> subject_issues c) /\
    exists doc, c_src c = Some doc /\ forall f, In f (cs_fields cs) -> field_holds (c_jwt c) doc f.
  (** Definitions the claim is about: at least one path per field, filters have a type and no allOf. *)
  Definition plain_field (f : field) : Prop :=
    fd_paths f <> [] /\
    match fd_filter f with Some ft => ft_type ft <> None /\ ft_allof ft = [] | None => True end.
End Fields.

(** ** Array path compaction.  A path is a list of object keys and array indices. *)
Inductive pkey := KIdx (n : nat) | KName (s : string).
(** Index [v] of the array at [p] occurs in one of the paths. *)
Definition mentioned (paths : list (list pkey)) (p : list pkey) (v : nat) : Prop :=
  exists rest, In (p ++ KIdx v :: rest)%list paths.
(** Replace every array index by its rank. *)
Fixpoint renumber (rank : list pkey -> nat -> nat) (pre ks : list pkey) : list pkey :=
  match ks with
  | [] => []
  | KName s :: r => KName s :: renumber rank (pre ++ [KName s])%list r
  | KIdx v :: r => KIdx (rank pre v) :: renumber rank (pre ++ [KIdx v])%list r
  end.
(** [rank] numbers the mentioned elements of every array 0, 1, 2, ... *)
Definition compacts (paths : list (list pkey)) (rank : list pkey -> nat -> nat) : Prop :=
  (forall p v w, mentioned paths p v -> mentioned paths p w -> rank p v = rank p w -> v = w) /\
  (forall p v k, mentioned paths p v -> (k < rank p v)%nat -> exists w, mentioned paths p w /\ rank p w = k).
