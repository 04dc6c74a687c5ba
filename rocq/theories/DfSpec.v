(** What a presentation definition has to look like, said on the Go structures themselves; [V1], [V2]: Presentation Exchange 1.0, 2.0.
    [None] in a list is a nil pointer. *)
From Verif Require Import GoBase DfModel.

Inductive version := V1 | V2.
(** an optional member that is given has the property *)
Definition given {A} (P : A -> Prop) (o : option A) : Prop := match o with Some x => P x | None => True end.
(** a list of pointers none of which is nil *)
Definition pointers {A} (P : A -> Prop) (l : list (option A)) : Prop := Forall (fun o => exists x, o = Some x /\ P x) l.
Definition preference (s : string) : Prop := s = "required" \/ s = "preferred".
Definition num_or_str (j : json) : Prop := (exists q, j = JNum q) \/ exists s, j = JStr s.

Section Defs.
  Variable meta : json -> Prop. (* valid as a JSON schema *)
  Variable v : version.
  (** 1.0: the filter has a type, its bounds and constants are numbers or texts; 2.0: it is a JSON schema *)
  Definition filter_fine (f : gfilter) : Prop :=
    match v with
    | V1 => gi_type (gl_item f) <> None /\ given num_or_str (gi_min (gl_item f)) /\ given num_or_str (gi_max (gl_item f)) /\
            given num_or_str (gi_xmin (gl_item f)) /\ given num_or_str (gi_xmax (gl_item f)) /\ given num_or_str (gi_const (gl_item f)) /\
            Forall num_or_str (gi_enum (gl_item f))
    | V2 => meta (filter_json f)
    end.
  (** a field has a path; a predicate needs a filter; intent_to_retain and optional exist in 2.0 only, and optional not with a predicate *)
  Definition field_fine (f : gfield) : Prop :=
    gd_path f <> [] /\ given filter_fine (gd_filter f) /\
    (gd_pred f <> None -> given preference (gd_pred f) /\ gd_filter f <> None /\ gd_optional f = false) /\
    (v = V1 -> gd_retain f = false /\ gd_optional f = false).
  Definition holder_fine (h : gholder) : Prop := gh_fields h <> [] /\ exists d, gh_directive h = Some d /\ preference d.
  Definition cons_fine (c : gcons) : Prop :=
    given preference (gc_limit c) /\ given preference (gc_issuer c) /\ pointers holder_fine (gc_holder c) /\ pointers field_fine (gc_fields c).
  (** no cwt designations; in 1.0 every designation lists at least one algorithm or proof type *)
  Definition format_fine (f : gformat) : Prop :=
    gf_cwt_vc f = None /\ gf_cwt_vp f = None /\
    (v = V1 -> forall l, In (Some l) [gf_jwt f; gf_jwt_vc f; gf_jwt_vp f; gf_ldp f; gf_ldp_vc f; gf_ldp_vp f] -> l <> []).
  Definition schema_fine (s : gschema) : Prop := gs_uri s <> "".
  (** schemas are mandatory in 1.0 and do not exist in 2.0; formats of descriptors exist in 2.0 only *)
  Definition desc_fine (d : gdesc) : Prop :=
    ge_id d <> "" /\ ge_meta d = [] /\ given cons_fine (ge_cons d) /\
    match v with
    | V1 => ge_schema d <> [] /\ pointers schema_fine (ge_schema d) /\ ge_format d = None
    | V2 => ge_schema d = [] /\ given format_fine (ge_format d)
    end.
  (** a submission requirement, at every depth: rule "all" or "pick", no negative bounds, either a group or nested requirements *)
  Inductive sreq_fine : gsreq -> Prop :=
  | sf_group name purpose rule count mn mx from : rule = "all" \/ rule = "pick" -> 0 <= count -> 0 <= mn -> 0 <= mx ->
      from <> "" -> sreq_fine (GSR name purpose rule count mn mx from [])
  | sf_nested name purpose rule count mn mx nested : rule = "all" \/ rule = "pick" -> 0 <= count -> 0 <= mn -> 0 <= mx ->
      nested <> [] -> pointers sreq_fine nested -> sreq_fine (GSR name purpose rule count mn mx "" nested).
  Definition def_fine (p : gdef) : Prop :=
    gp_id p <> "" /\ gp_locale p = "" /\ given format_fine (gp_format p) /\ (v = V1 -> gp_frame p = []) /\
    pointers sreq_fine (gp_reqs p) /\ gp_descs p <> [] /\ pointers desc_fine (gp_descs p).
End Defs.
(** the draft-07 meta-schema, behind the reference of presexch/schema.go *)
Definition draft07 (ext : string -> json -> bool) (j : json) : Prop := ext "http://json-schema.org/draft-07/schema#" j = true.
