(** Model of PresentationDefinition.ValidateSchema: presexch/definition.go:280-313; the Go types of 86-216 with the way
    encoding/json writes them (every member is tagged omitempty: empty texts, numbers 0, false, nil pointers, empty slices and maps
    are left out; a nil pointer in a slice is written as null).  gojsonschema.NewGoLoader marshals the definition and reads it back,
    so the document that is checked is the marshalled one.
    Not modelled: the texts of the validation errors, replacement of invalid UTF-8 by json.Marshal. *)
From Verif Require Import GoBase StatusModel PexModel JsModel JsSchemas.

(** ** The Go types; [option]: pointers; slices of pointers may hold nil *)
(** presexch/definition.go:86-97, 105-117 Format, CwtType, JwtType, LdpType *)
Record gformat := { gf_jwt : option (list string); gf_jwt_vc : option (list string); gf_jwt_vp : option (list string);
  gf_ldp : option (list string); gf_ldp_vc : option (list string); gf_ldp_vp : option (list string);
  gf_cwt_vc : option (list string); gf_cwt_vp : option (list string) }.
(** presexch/definition.go:202-216 FilterItem; interface values are JSON values, nil is [None] *)
Record gitem := { gi_type : option string; gi_format : string; gi_pattern : string; gi_min : option json; gi_max : option json;
  gi_min_len : Z; gi_max_len : Z; gi_xmin : option json; gi_xmax : option json; gi_const : option json; gi_enum : list json;
  gi_not : gomap json; gi_contains : gomap json }.
(** presexch/definition.go:196-199 Filter *)
Record gfilter := { gl_item : gitem; gl_all : list (option gitem) }.
(** presexch/definition.go:185-193 Field *)
Record gfield := { gd_path : list string; gd_id : string; gd_purpose : string; gd_filter : option gfilter; gd_pred : option string;
  gd_retain : bool; gd_optional : bool }.
(** presexch/definition.go:171-174 Holder, 177-182 Constraints *)
Record gholder := { gh_fields : list string; gh_directive : option string }.
Record gcons := { gc_limit : option string; gc_issuer : option string; gc_holder : list (option gholder); gc_fields : list (option gfield) }.
(** presexch/definition.go:165-168 Schema, 153-162 InputDescriptor *)
Record gschema := { gs_uri : string; gs_required : bool }.
Record gdesc := { ge_id : string; ge_group : list string; ge_name : string; ge_purpose : string; ge_meta : gomap json;
  ge_schema : list (option gschema); ge_cons : option gcons; ge_format : option gformat }.
(** presexch/definition.go:141-150 SubmissionRequirement *)
Inductive gsreq : Type := GSR (name purpose rule : string) (count mn mx : Z) (from : string) (nested : list (option gsreq)).
(** presexch/definition.go:120-137 PresentationDefinition *)
Record gdef := { gp_id : string; gp_name : string; gp_purpose : string; gp_locale : string; gp_format : option gformat; gp_frame : gomap json;
  gp_reqs : list (option gsreq); gp_descs : list (option gdesc) }.

(** ** encoding/json with omitempty (the json tags of presexch/definition.go:86-216) *)
Definition fields (l : list (string * option json)) : gomap json :=
  flat_map (fun kv => match snd kv with Some x => [(fst kv, x)] | None => [] end) l.
Definition om_str (s : string) : option json := if String.eqb s "" then None else Some (JStr s).
Definition om_int (z : Z) : option json := if z =? 0 then None else Some (jnum z).
Definition om_bool (b : bool) : option json := if b then Some (JBool true) else None.
Definition om_list {A} (f : A -> json) (l : list A) : option json := match l with [] => None | _ => Some (JArr (map f l)) end.
Definition om_map (m : gomap json) : option json := match m with [] => None | _ => Some (JObj m) end.
Definition om_ptr {A} (f : A -> json) (o : option A) : option json := option_map f o.
Definition ptr {A} (f : A -> json) (o : option A) : json := match o with Some x => f x | None => JNull end.

Definition alg_json (l : list string) : json := JObj (fields [("alg", om_list JStr l)]).
Definition proof_type_json (l : list string) : json := JObj (fields [("proof_type", om_list JStr l)]).
Definition format_json (f : gformat) : json := JObj (fields
  [("jwt", om_ptr alg_json (gf_jwt f)); ("jwt_vc", om_ptr alg_json (gf_jwt_vc f)); ("jwt_vp", om_ptr alg_json (gf_jwt_vp f));
   ("ldp", om_ptr proof_type_json (gf_ldp f)); ("ldp_vc", om_ptr proof_type_json (gf_ldp_vc f)); ("ldp_vp", om_ptr proof_type_json (gf_ldp_vp f));
   ("cwt_vc", om_ptr alg_json (gf_cwt_vc f)); ("cwt_vp", om_ptr alg_json (gf_cwt_vp f))]).
Definition item_fields (i : gitem) : list (string * option json) :=
  [("type", om_ptr JStr (gi_type i)); ("format", om_str (gi_format i)); ("pattern", om_str (gi_pattern i)); ("minimum", gi_min i); ("maximum", gi_max i);
   ("minLength", om_int (gi_min_len i)); ("maxLength", om_int (gi_max_len i)); ("exclusiveMinimum", gi_xmin i); ("exclusiveMaximum", gi_xmax i);
   ("const", gi_const i); ("enum", om_list (fun j => j) (gi_enum i)); ("not", om_map (gi_not i)); ("contains", om_map (gi_contains i))].
Definition item_json (i : gitem) : json := JObj (fields (item_fields i)).
(** the members of the embedded FilterItem are members of the filter *)
Definition filter_json (f : gfilter) : json := JObj (fields (item_fields (gl_item f) ++ [("allOf", om_list (ptr item_json) (gl_all f))])%list).
Definition field_json (f : gfield) : json := JObj (fields
  [("path", om_list JStr (gd_path f)); ("id", om_str (gd_id f)); ("purpose", om_str (gd_purpose f)); ("filter", om_ptr filter_json (gd_filter f));
   ("predicate", om_ptr JStr (gd_pred f)); ("intent_to_retain", om_bool (gd_retain f)); ("optional", om_bool (gd_optional f))]).
Definition holder_json (h : gholder) : json := JObj (fields [("field_id", om_list JStr (gh_fields h)); ("directive", om_ptr JStr (gh_directive h))]).
Definition cons_json (c : gcons) : json := JObj (fields
  [("limit_disclosure", om_ptr JStr (gc_limit c)); ("subject_is_issuer", om_ptr JStr (gc_issuer c)); ("is_holder", om_list (ptr holder_json) (gc_holder c));
   ("fields", om_list (ptr field_json) (gc_fields c))]).
Definition schema_json (s : gschema) : json := JObj (fields [("uri", om_str (gs_uri s)); ("required", om_bool (gs_required s))]).
Definition desc_json (d : gdesc) : json := JObj (fields
  [("id", om_str (ge_id d)); ("group", om_list JStr (ge_group d)); ("name", om_str (ge_name d)); ("purpose", om_str (ge_purpose d));
   ("metadata", om_map (ge_meta d)); ("schema", om_list (ptr schema_json) (ge_schema d)); ("constraints", om_ptr cons_json (ge_cons d));
   ("format", om_ptr format_json (ge_format d))]).
Fixpoint sreq_json (s : gsreq) : json :=
  match s with
  | GSR name purpose rule count mn mx from nested => JObj (fields
      [("name", om_str name); ("purpose", om_str purpose); ("rule", om_str rule); ("count", om_int count); ("min", om_int mn); ("max", om_int mx);
       ("from", om_str from); ("from_nested", match nested with [] => None | _ => Some (JArr (map (fun o => match o with Some x => sreq_json x | None => JNull end) nested)) end)])
  end.
Definition def_json (p : gdef) : json := JObj (fields
  [("id", om_str (gp_id p)); ("name", om_str (gp_name p)); ("purpose", om_str (gp_purpose p)); ("locale", om_str (gp_locale p));
   ("format", om_ptr format_json (gp_format p)); ("frame", om_map (gp_frame p)); ("submission_requirements", om_list (ptr sreq_json) (gp_reqs p));
   ("input_descriptors", om_list (ptr desc_json) (gp_descs p))]).

(** presexch/definition.go:280-313 ValidateSchema: DefinitionJSONSchemaV1, and when that does not accept the definition DefinitionJSONSchemaV2 *)
Definition validate_schema (re fmt : string -> string -> bool) (ext : string -> json -> bool) (pd : option gdef) : res unit :=
  let doc := JObj [("presentation_definition", ptr def_json pd)] in
  if js_valid re fmt ext def1 doc then Ok tt else guard (js_valid re fmt ext def2 doc) "invalid presentation definition".
