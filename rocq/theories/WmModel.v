(** Model of the wallet side of presexch/definition.go: MatchSubmissionRequirement (602-732), filterCredentialsThatMatchDescriptor
    (841-873), and the frame of CreateVP and CreateVPArray (480-600, 1971-1992).
    Go works with pointers to credentials: the wallet is a list of pointers, filters hand on pointers, limitDisclosure makes new
    credentials or (SD-JWT) changes the pointed-at credential.  The model has a heap (a list of credentials, a pointer is an
    index); [A] is the type of credentials and [obs] what the filters see of one. *)
From Verif Require Import GoBase StatusModel PexSpec ReqSpec ReqModel PexModel VcModel.

(** ** The definition *)
(** presexch/definition.go:86-97 Format; [wf_cwt]: cwt_vc or cwt_vp is present *)
Record wformat := { wf_six : pformat; wf_cwt : bool }.
Definition some_b {X} (o : option X) : bool := match o with Some _ => true | None => false end.
(** presexch/definition.go:99-102 notNil *)
Definition not_nil (f : option wformat) : bool :=
  match f with
  | None => false
  | Some w => let s := wf_six w in
      (some_b (f_jwt s) || some_b (f_jwt_vc s) || some_b (f_jwt_vp s) || some_b (f_ldp s) || some_b (f_ldp_vc s) || some_b (f_ldp_vp s))%bool
  end.
(** presexch/definition.go:177-182 Constraints: is_holder, the rest (PexSpec), and which fields have a required predicate *)
Record wcons := { wc_holder : list (list string * bool); wc_base : constraints; wc_preds : list bool }.
(** presexch/definition.go:153-162 InputDescriptor; [wd_schema = None]: a nil slice *)
Record wdesc := { wd_id : string; wd_group : list string; wd_name : string; wd_purpose : string;
                  wd_schema : option (list schema); wd_cons : option wcons; wd_format : option wformat }.
(** presexch/definition.go:141-150 SubmissionRequirement, 120-137 PresentationDefinition *)
Inductive wsreq : Type := WSR (name purpose rule : string) (count mn mx : Z) (from : string) (nested : list wsreq).
Record wdef := { wp_id : string; wp_format : option wformat; wp_frame : option (gomap json); wp_reqs : list wsreq; wp_descs : list wdesc }.

(** ** Filters that keep pointers.  [B]: pointers, [o]: what is seen of the credential behind one *)
Section Filters.
  Variable B : Type.
  Variable o : B -> cred.
  (** 1758-1821 filterFormat (PexModel.filter_format) *)
  Definition by_format (f : pformat) (l : list B) : string * list B :=
    let am c x := match (if c_jwt c then c_alg c else None) with Some a => alg_match a x | None => false end in
    let bucket (p : cred -> bool) := filter (fun b => p (o b)) l in
    let l1 := bucket (fun c => cred_by_proof c (f_ldp f)) in
    let l2 := bucket (fun c => cred_by_proof c (f_ldp_vc f)) in
    let l3 := bucket (fun c => cred_by_proof c (f_ldp_vp f)) in
    let l4 := bucket (fun c => am c (f_jwt f)) in
    let l5 := bucket (fun c => am c (f_jwt_vc f)) in
    let l6 := bucket (fun c => am c (f_jwt_vp f)) in
    if negb (is_nil l1) then ("ldp", l1)
    else if negb (is_nil l2) then ("ldp_vc", l2)
    else if negb (is_nil l3) then ("ldp_vp", l3)
    else if negb (is_nil l4) then ("jwt", l4)
    else if negb (is_nil l5) then ("jwt_vc", l5)
    else if negb (is_nil l6) then ("jwt_vp", l6)
    else ("", []).
  (** 1852-1904 filterSchema (PexModel.filter_schema) *)
  Variable ctx : Type.
  Variable load : string -> res ctx.
  Variable type_ids : ctx -> string -> option (list string).
  Fixpoint by_schema (schemas : list schema) (cache : gomap ctx) (l : list B) : res (list B) :=
    match l with
    | [] => Ok []
    | b :: rest =>
        let* p := satisfied_ids ctx load type_ids cache (c_contexts (o b)) (c_types (o b)) in
        let* r := by_schema schemas (fst p) rest in
        Ok (if schemas_applicable (snd p) schemas false then b :: r else r)
    end.
  (** 939-1021 filterConstraints (PexModel.filter_constraints); is_holder is not looked at *)
  Variable jp_parse : string -> option (json -> list json).
  Variable validate : jschema -> json -> bool.
  Variable rfc3339 : string -> option Z.
  Variable order : list (string * string).
  Fixpoint by_constraints_loop (cs : constraints) (l : list B) : res (list B) :=
    match l with
    | [] => Ok []
    | b :: rest =>
        if (cs_subject_is_issuer cs && negb (subject_is_issuer (o b)))%bool then by_constraints_loop cs rest
        else match c_src (o b) with
             | None => by_constraints_loop cs rest
             | Some doc =>
                 let* ok := fields_applicable jp_parse validate rfc3339 order (cs_fields cs) doc (c_jwt (o b)) false in
                 let* r := by_constraints_loop cs rest in
                 Ok (if ok then b :: r else r)
             end
    end.
  Definition by_constraints (c : option wcons) (l : list B) : res (list B) :=
    match c with None => Ok l | Some w => by_constraints_loop (wc_base w) l end.
  (** 841-873 filterCredentialsThatMatchDescriptor *)
  Definition that_match (pd : wdef) (d : wdesc) (l : list B) : res (string * list B) :=
    let format := if not_nil (wd_format d) then wd_format d else wp_format pd in
    let p := match format with
             | Some w => if not_nil format then by_format (wf_six w) l else ("", l)
             | None => ("", l)
             end in
    let* l2 := match wd_schema d with Some s => by_schema s [] (snd p) | None => Ok (snd p) end in
    let* l3 := by_constraints (wd_cons d) l2 in
    Ok (fst p, l3).
End Filters.

(** ** Requirements with their names: 405-453 toRequirement *)
Inductive wreq : Type := WRQ (name purpose rule : string) (count mn mx : Z) (descs : list wdesc) (nested : list wreq).
Fixpoint to_wreq (descs : list wdesc) (sr : wsreq) {struct sr} : res wreq :=
  match sr with
  | WSR name purpose rule count mn mx from nested =>
      if negb (String.eqb from "") then
        let group := filter (fun d => str_in from (wd_group d)) descs in
        let total := Z.of_nat (List.length group) in
        if total =? 0 then Err "no descriptors for from"
        else Ok (WRQ name purpose rule (if String.eqb rule "all" then total else count) mn mx group [])
      else
        let* ns := (fix go (l : list wsreq) := match l with
                    | [] => Ok []
                    | s :: ss => let* r := to_wreq descs s in let* rs := go ss in Ok (r :: rs)
                    end) nested in
        Ok (WRQ name purpose rule (if String.eqb rule "all" then Z.of_nat (List.length ns) else count) mn mx [] ns)
  end.
(** 602-627 makeRequirementsForMatch *)
Definition requirements_for_match (reqs : list wsreq) (descs : list wdesc) : res (list wreq) :=
  match reqs with
  | [] => Ok [WRQ "" "" "all" (Z.of_nat (List.length descs)) 0 0 descs []]
  | _ => map_res (to_wreq descs) reqs
  end.

(** ** MatchedSubmissionRequirement, MatchedInputDescriptor 219-238; credentials are pointers *)
Record mdesc := { md_id : string; md_name : string; md_purpose : string; md_cons : option wcons; md_schema : option (list schema); md_vcs : list nat }.
Inductive mreq : Type := MR (name purpose rule : string) (count mn mx : Z) (descs : list mdesc) (nested : list mreq).

(** what limitDisclosure 1024-1129 does with one credential: leave it out, hand over the same pointer, hand over a new
    credential, or change the credential behind the pointer (SetSDJWTDisclosures) and hand over that pointer; with the id used to
    tell submitted credentials apart *)
Inductive limited (A : Type) := LDrop | LSame (id : string) | LNew (id : string) (a : A) | LChange (id : string) (a : A).
Arguments LDrop {A}. Arguments LSame {A}. Arguments LNew {A}. Arguments LChange {A}.

Section Wallet.
  Variable A : Type.
  Variable obs : A -> cred.
  Variable none : A.                                   (* content of a pointer outside the heap: never read *)
  Variable valid : wdef -> res unit.                   (* 280-313 ValidateSchema (DfModel) *)
  Variable frame : gomap json -> A -> res A.           (* 1223-1242 frameCreds: GenerateBBSSelectiveDisclosure of one credential *)
  Variable limit : wcons -> A -> res (limited A).      (* 1024-1129 limitDisclosure of one credential *)
  Variable idof : A -> string.                         (* Contents().ID *)
  Variable ctx : Type.
  Variable load : string -> res ctx.
  Variable type_ids : ctx -> string -> option (list string).
  Variable jp_parse : string -> option (json -> list json).
  Variable validate : jschema -> json -> bool.
  Variable rfc3339 : string -> option Z.
  Variable order : list (string * string).
  Definition at_ptr (h : list A) (p : nat) : A := nth p h none.
  Definition found (pd : wdef) (d : wdesc) (h : list A) (l : list nat) : res (string * list nat) :=
    that_match nat (fun p => obs (at_ptr h p)) ctx load type_ids jp_parse validate rfc3339 order pd d l.
  Fixpoint set_nth (h : list A) (p : nat) (a : A) : list A :=
    match h, p with
    | [], _ => []
    | _ :: t, O => a :: t
    | x :: t, S p' => x :: set_nth t p' a
    end.
  (** 1223-1242: the framed credentials are new ones *)
  Definition frame_all (f : option (gomap json)) (h : list A) (l : list nat) : res (list A * list nat) :=
    match f with
    | None => Ok (h, l)
    | Some f => let* new := map_res (fun p => frame f (at_ptr h p)) l in
                Ok ((h ++ new)%list, seq (List.length h) (List.length new))
    end.
  (** 1024-1129 *)
  Fixpoint limit_all (c : option wcons) (h : list A) (l : list nat) : res (list A * list (string * nat)) :=
    match l with
    | [] => Ok (h, [])
    | p :: rest =>
        let* x := match c with None => Ok (LSame (idof (at_ptr h p))) | Some w => limit w (at_ptr h p) end in
        match x with
        | LDrop => limit_all c h rest
        | LSame id => let* r := limit_all c h rest in Ok (fst r, (id, p) :: snd r)
        | LNew id a => let* r := limit_all c (h ++ [a])%list rest in Ok (fst r, (id, List.length h) :: snd r)
        | LChange id a => let* r := limit_all c (set_nth h p a) rest in Ok (fst r, (id, p) :: snd r)
        end
    end.
  (** 677-716: one descriptor; [sd]: applySelectiveDisclosure *)
  Definition match_desc (pd : wdef) (sd : bool) (wallet : list nat) (h : list A) (d : wdesc) : res (list A * mdesc) :=
    let* fr := if sd then frame_all (wp_frame pd) h wallet else Ok (h, wallet) in
    let* fl := found pd d (fst fr) (snd fr) in
    let* r := if sd then let* x := limit_all (wd_cons d) (fst fr) (snd fl) in Ok (fst x, map snd (snd x))
              else Ok (fst fr, snd fl) in
    Ok (fst r, {| md_id := wd_id d; md_name := wd_name d; md_purpose := wd_purpose d; md_cons := wd_cons d; md_schema := wd_schema d; md_vcs := snd r |}).
  Fixpoint match_descs (pd : wdef) (sd : bool) (wallet : list nat) (h : list A) (ds : list wdesc) : res (list A * list mdesc) :=
    match ds with
    | [] => Ok (h, [])
    | d :: rest => let* a := match_desc pd sd wallet h d in let* b := match_descs pd sd wallet (fst a) rest in Ok (fst b, snd a :: snd b)
    end.
  (** 664-732 matchRequirement *)
  Fixpoint match_req (pd : wdef) (sd : bool) (wallet : list nat) (h : list A) (r : wreq) {struct r} : res (list A * mreq) :=
    match r with
    | WRQ name purpose rule count mn mx descs nested =>
        let* a := match_descs pd sd wallet h descs in
        let* b := (fix go (h : list A) (l : list wreq) : res (list A * list mreq) := match l with
                   | [] => Ok (h, [])
                   | x :: xs => let* y := match_req pd sd wallet h x in let* z := go (fst y) xs in Ok (fst z, snd y :: snd z)
                   end) (fst a) nested in
        Ok (fst b, MR name purpose rule count mn mx (snd a) (snd b))
    end.
  Fixpoint match_reqs (pd : wdef) (sd : bool) (wallet : list nat) (h : list A) (l : list wreq) : res (list A * list mreq) :=
    match l with
    | [] => Ok (h, [])
    | x :: xs => let* y := match_req pd sd wallet h x in let* z := match_reqs pd sd wallet (fst y) xs in Ok (fst z, snd y :: snd z)
    end.
  (** 630-658 MatchSubmissionRequirement for a wallet with these credentials (pointers 0, 1, ...): the heap afterwards, the answer *)
  Definition match_submission (pd : wdef) (sd : bool) (creds : list A) : res (list A * list mreq) :=
    let* _ := valid pd in
    let* rs := requirements_for_match (wp_reqs pd) (wp_descs pd) in
    match_reqs pd sd (seq 0 (List.length creds)) creds rs.

  (** ** CreateVP and CreateVPArray, for wallets in which no credential is changed ([LChange]): C47 is about the others *)
  (** without the changes: the credentials limitDisclosure hands over for one descriptor *)
  Definition limit_pure (c : option wcons) (a : A) : res (list (string * A)) :=
    match c with
    | None => Ok [(idof a, a)]
    | Some w => let* x := limit w a in
                Ok match x with LDrop => [] | LSame id => [(id, a)] | LNew id b | LChange id b => [(id, b)] end
    end.
  Definition found_creds (pd : wdef) (d : wdesc) (l : list A) : res (string * list A) :=
    that_match A obs ctx load type_ids jp_parse validate rfc3339 order pd d l.
  (** 789-797: one descriptor *)
  Definition eval_desc (pd : wdef) (framed : list A) (d : wdesc) : res (string * list (string * A)) :=
    let* fl := found_creds pd d framed in
    let* cs := map_res (limit_pure (wd_cons d)) (snd fl) in
    Ok (fst fl, List.concat cs).
  (** 1223-1242 once more: the credentials the search looks at *)
  Definition framed_creds (f : option (gomap json)) (l : list A) : res (list A) :=
    match f with None => Ok l | Some f => map_res (frame f) l end.
End Wallet.

(** erasing names: the requirement and descriptors of ReqModel *)
Definition idesc_of (d : wdesc) : idesc := {| id_id := wd_id d; id_group := wd_group d |}.
Fixpoint sreq_of (s : wsreq) : sreq :=
  match s with WSR _ _ rule count mn mx from nested => SR (String.eqb rule "all") count mn mx from (map sreq_of nested) end.

(** ** presentationData 540-573, presentation 575-600, CreateVP 480-506, CreateVPArray 510-538; a credential is what the package sees
    of one.  [order of the map]: sort.Sort(byID) 1746 is not stable, the list here is before it.  uuid.New() is a parameter. *)
Record wvp := { wv_context : list string; wv_type : list string; wv_id : string; wv_creds : list cred; wv_custom : gomap (string * string * list mapping) }.
Definition submission_context : string := "https://identity.foundation/presentation-exchange/submission/v1".
Definition submission_type : string := "PresentationSubmission".
(** 1971-1992 getBaseContext *)
Fixpoint common_base (base : string) (l : list cred) : res string :=
  match l with
  | [] => if String.eqb base "" then Err "base context is required" else Ok base
  | c :: rest =>
      let* b := get_base_context (c_contexts c) in
      if String.eqb base "" then common_base b rest
      else if String.eqb base b then common_base base rest else Err "credentials have different base contexts"
  end.
(** 575-600; verifiable.NewPresentation 355-389 *)
Definition make_presentation (id : string) (l : list cred) : res wvp :=
  let* b := common_base "" l in
  Ok {| wv_context := if str_in submission_context [b] then [b] else [b; submission_context];
        wv_type := ["VerifiablePresentation"; submission_type]; wv_id := id; wv_creds := l; wv_custom := [] |}.
Section CreateVp.
  Variable valid : wdef -> res unit.
  Variable frame : gomap json -> cred -> res cred.
  Variable limit : wcons -> cred -> res (limited cred).
  Variable ctx : Type.
  Variable load : string -> res ctx.
  Variable type_ids : ctx -> string -> option (list string).
  Variable jp_parse : string -> option (json -> list json).
  Variable validate : jschema -> json -> bool.
  Variable rfc3339 : string -> option Z.
  Variable order : list (string * string).
  (** the descriptor behind an id (ids are distinct) *)
  Definition desc_of (pd : wdef) (i : idesc) : option wdesc := find (fun d => String.eqb (wd_id d) (id_id i)) (wp_descs pd).
  Definition eval_id (pd : wdef) (l : list cred) (i : idesc) : res (string * list (string * cred)) :=
    match desc_of pd i with
    | None => Panic
    | Some d => eval_desc cred (fun c => c) limit c_id ctx load type_ids jp_parse validate rfc3339 order pd l d
    end.
  Definition wrapped (t : gomap (list (string * cred))) : gomap (list credw) :=
    map (fun kv => (fst kv, map (fun p => {| cw_uid := fst p; cw_vc := snd p |}) (snd kv))) t.
  Definition presentation_data (pd : wdef) (separate : bool) (default_fmt : string) (creds : list cred) : res (list cred * list mapping) :=
    let* _ := valid pd in
    let* r := make_requirement (map sreq_of (wp_reqs pd)) (map idesc_of (wp_descs pd)) in
    let* l := framed_creds cred frame (wp_frame pd) creds in
    match apply_requirement (string * cred) (eval_id pd l) (map idesc_of (wp_descs pd)) r default_fmt with
    | None => Panic                                        (* fuel: proved impossible (C10) *)
    | Some x => let* ft := x in Ok (merge (fst ft) (wrapped (snd ft)) separate)
    end.
  (** [ids]: the two generated identifiers (submission, presentation) *)
  Definition create_vp (ids : string * string) (pd : wdef) (fmt : string) (creds : list cred) : res wvp :=
    let* p := presentation_data pd false fmt creds in
    let* v := make_presentation (snd ids) (fst p) in
    Ok {| wv_context := wv_context v; wv_type := wv_type v; wv_id := wv_id v; wv_creds := wv_creds v;
          wv_custom := [("presentation_submission", (fst ids, wp_id pd, snd p))] |}.
  Definition create_vp_array (id : string) (fresh : nat -> string) (pd : wdef) (fmt : string) (creds : list cred) : res (list wvp * (string * string * list mapping)) :=
    let* p := presentation_data pd true fmt creds in
    let* vs := map_res (fun ic : nat * cred => make_presentation (fresh (fst ic)) [snd ic]) (combine (seq 0 (List.length (fst p))) (fst p)) in
    Ok (vs, (id, wp_id pd, snd p)).
End CreateVp.
