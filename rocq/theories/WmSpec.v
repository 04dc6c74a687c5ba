(** Vocabulary for the wallet side of presentation exchange. *)
From Verif Require Import GoBase StatusModel PexSpec ReqSpec ReqModel PexModel PexProofs VcModel WmModel.

(** this format object designates one of the six claim formats *)
Definition designates (f : option wformat) (s : pformat) : Prop :=
  exists w, f = Some w /\ wf_six w = s /\
    (f_jwt s <> None \/ f_jwt_vc s <> None \/ f_jwt_vp s <> None \/ f_ldp s <> None \/ f_ldp_vc s <> None \/ f_ldp_vp s <> None).
(** the formats that apply to a descriptor: its own, or those of the definition *)
Inductive formats_of (pd : wdef) (d : wdesc) : option pformat -> Prop :=
| fo_own s : designates (wd_format d) s -> formats_of pd d (Some s)
| fo_def s : (forall t, ~ designates (wd_format d) t) -> designates (wp_format pd) s -> formats_of pd d (Some s)
| fo_none : (forall t, ~ designates (wd_format d) t) -> (forall t, ~ designates (wp_format pd) t) -> formats_of pd d None.
(** the first of several named predicates that selects something, and what it selects *)
Inductive first_of {B} (l : list B) : list (string * (B -> Prop)) -> string -> list B -> Prop :=
| fi_none : first_of l [] "" []
| fi_here n P rest l' : selects P l l' -> l' <> [] -> first_of l ((n, P) :: rest) n l'
| fi_next n P rest n' l' : selects P l [] -> first_of l rest n' l' -> first_of l ((n, P) :: rest) n' l'.

Section Matching.
  Variable ctx : Type.
  Variable load : string -> res ctx.
  Variable type_ids : ctx -> string -> option (list string).
  Variable jp_parse : string -> option (json -> list json).
  Variable validate : jschema -> json -> bool.
  Variable rfc3339 : string -> option Z.
  Variable order : list (string * string).
  Definition holds (w : wcons) (c : cred) : Prop := cred_holds jp_parse validate rfc3339 (jwt_path order) convert_rfc9535 (wc_base w) c.
  (** [l'] are the elements of [l] that match the descriptor: of an allowed format (the first of the six that [l] has any of, when
      formats are given), offering the schemas (when there is a schema list), satisfying the constraints (when there are any) *)
  Definition matching {B} (look : B -> cred) (pd : wdef) (d : wdesc) (l : list B) (fmt : string) (l' : list B) : Prop :=
    exists l1 l2,
      ((formats_of pd d None /\ fmt = "" /\ l1 = l) \/
       (exists f, formats_of pd d (Some f) /\ first_of l (map (fun np => (fst np, fun b => snd np (look b))) (format_priority f)) fmt l1)) /\
      match wd_schema d with None => l2 = l1 | Some s => selects (fun b => schemas_ok ctx load type_ids s (look b)) l1 l2 end /\
      match wd_cons d with None => l' = l2 | Some w => selects (fun b => holds w (look b)) l2 l' end.
End Matching.

(** definitions the claims are about: constraints have fields, fields have a path, filters have a type and no allOf (C51, C52, C55) *)
Definition plain_cons (c : option wcons) : Prop :=
  match c with None => True | Some w => Forall plain_field (cs_fields (wc_base w)) /\ cs_fields (wc_base w) <> [] end.
Definition plain_def (pd : wdef) : Prop := forall d, In d (wp_descs pd) -> plain_cons (wd_cons d).

(** the answer's entry for a descriptor; [M d l]: the credentials to be listed *)
Definition described (M : wdesc -> list nat -> Prop) (d : wdesc) (m : mdesc) : Prop :=
  md_id m = wd_id d /\ md_name m = wd_name d /\ md_purpose m = wd_purpose d /\ md_cons m = wd_cons d /\ md_schema m = wd_schema d /\ M d (md_vcs m).
(** the answer's entry for a submission requirement has the same name, purpose, rule, bounds (the count of an "all" rule is the number of its members), the
    descriptors of its group in the order of the definition, or the entries for its nested requirements *)
Section Mirror.
  Variable descs : list wdesc.
  Variable M : wdesc -> list nat -> Prop.
  Inductive mirrors : wsreq -> mreq -> Prop :=
  | mi_group name purpose rule count mn mx from nested ds l :
      from <> "" -> selects (fun d => In from (wd_group d)) descs ds -> ds <> [] -> Forall2 (described M) ds l ->
      mirrors (WSR name purpose rule count mn mx from nested)
              (MR name purpose rule (if String.eqb rule "all" then Z.of_nat (List.length ds) else count) mn mx l [])
  | mi_nested name purpose rule count mn mx nested ns :
      mirror_all nested ns ->
      mirrors (WSR name purpose rule count mn mx "" nested)
              (MR name purpose rule (if String.eqb rule "all" then Z.of_nat (List.length nested) else count) mn mx [] ns)
  with mirror_all : list wsreq -> list mreq -> Prop :=
  | ma_nil : mirror_all [] []
  | ma_cons s ss m ms : mirrors s m -> mirror_all ss ms -> mirror_all (s :: ss) (m :: ms).
End Mirror.
(** the whole answer: without submission requirements, one entry "all" with every descriptor *)
Definition answers (pd : wdef) (M : wdesc -> list nat -> Prop) (ts : list mreq) : Prop :=
  (wp_reqs pd = [] /\ exists l, Forall2 (described M) (wp_descs pd) l /\ ts = [MR "" "" "all" (Z.of_nat (List.length (wp_descs pd))) 0 0 l []])
  \/ (wp_reqs pd <> [] /\ mirror_all (wp_descs pd) M (wp_reqs pd) ts).
(** the entries for descriptors anywhere in an answer *)
Inductive listed (m : mdesc) : mreq -> Prop :=
| li_here name purpose rule count mn mx l ns : In m l -> listed m (MR name purpose rule count mn mx l ns)
| li_in name purpose rule count mn mx l ns n : In n ns -> listed m n -> listed m (MR name purpose rule count mn mx l ns).
Definition listed_in (ts : list mreq) (m : mdesc) : Prop := exists t, In t ts /\ listed m t.
(** a group some requirement asks for and no descriptor has *)
Inductive empty_group (descs : list wdesc) : wsreq -> Prop :=
| eg_here name purpose rule count mn mx from nested :
    from <> "" -> (forall d, In d descs -> ~ In from (wd_group d)) -> empty_group descs (WSR name purpose rule count mn mx from nested)
| eg_in name purpose rule count mn mx nested s : In s nested -> empty_group descs s -> empty_group descs (WSR name purpose rule count mn mx "" nested).
(** the credentials that limiting the disclosure makes of one *)
Inductive handed {A} (limit : wcons -> A -> res (limited A)) : option wcons -> A -> list A -> Prop :=
| ha_none a : handed limit None a [a]
| ha_drop w a : limit w a = Ok LDrop -> handed limit (Some w) a []
| ha_same w a id : limit w a = Ok (LSame id) -> handed limit (Some w) a [a]
| ha_new w a id b : limit w a = Ok (LNew id b) -> handed limit (Some w) a [b].
(** the credentials the descriptors are matched against: framed ones, when the definition has a frame *)
Inductive framed {A} (frame : gomap json -> A -> res A) : option (gomap json) -> list A -> list A -> Prop :=
| fr_none l : framed frame None l l
| fr_some f l l' : Forall2 (fun a b => frame f a = Ok b) l l' -> framed frame (Some f) l l'.
(** the identifier under which a credential is submitted: made by limiting, or the credential's own *)
Inductive named {A} (limit : wcons -> A -> res (limited A)) (idof : A -> string) : option wcons -> A -> string -> A -> Prop :=
| na_none a : named limit idof None a (idof a) a
| na_same w a id : limit w a = Ok (LSame id) -> named limit idof (Some w) a id a
| na_new w a id b : limit w a = Ok (LNew id b) -> named limit idof (Some w) a id b.
(** different submitted credentials have different identifiers *)
Definition ids_identify {A} (limit : wcons -> A -> res (limited A)) (idof : A -> string) (descs : list wdesc) (l : list A) : Prop :=
  forall d d' a a' id b b', In d descs -> In d' descs -> In a l -> In a' l ->
    named limit idof (wd_cons d) a id b -> named limit idof (wd_cons d') a' id b' -> b = b'.
(** the submission requirements of a definition, read directly; [T]: the identifiers of the descriptors that are satisfied.  "all": every descriptor of the
    group, or every nested requirement; another rule: the number of those met is [count] and lies between [min] and [max], 0 meaning "not given" *)
Definition within (count mn mx : Z) (n : nat) : bool :=
  (((count <=? 0) || (Z.of_nat n =? count)) && ((mn <=? 0) || (mn <=? Z.of_nat n)) && ((mx <=? 0) || (Z.of_nat n <=? mx)))%bool.
Fixpoint met_by (descs : list wdesc) (T : list string) (s : wsreq) : bool :=
  match s with
  | WSR _ _ rule count mn mx from nested =>
      if String.eqb from "" then
        if String.eqb rule "all" then forallb (met_by descs T) nested else within count mn mx (List.length (filter (met_by descs T) nested))
      else
        let group := filter (fun d => str_in from (wd_group d)) descs in
        if String.eqb rule "all" then forallb (fun d => str_in (wd_id d) T) group
        else within count mn mx (List.length (filter (fun d => str_in (wd_id d) T) group))
  end.
(** without submission requirements all descriptors are asked for *)
Definition all_met (pd : wdef) (T : list string) : Prop :=
  (wp_reqs pd = [] /\ forall d, In d (wp_descs pd) -> In (wd_id d) T) \/
  (wp_reqs pd <> [] /\ forall s, In s (wp_reqs pd) -> met_by (wp_descs pd) T s = true).
(** no "all" requirement, at any depth, has a min or max *)
Inductive plain_rule : wsreq -> Prop :=
  pr name purpose rule count mn mx from nested : (rule = "all" -> mn <= 0 /\ mx <= 0) -> Forall plain_rule nested ->
    plain_rule (WSR name purpose rule count mn mx from nested).
(** a set of descriptors that an answer shows to be satisfiable and that meets the definition's requirements *)
Definition shows (pd : wdef) (ts : list mreq) (T : list string) : Prop :=
  T <> [] /\ (forall id, In id T -> exists m, listed_in ts m /\ md_id m = id /\ md_vcs m <> []) /\
  all_met pd T.
