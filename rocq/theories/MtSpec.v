(** Vocabulary for the selection of submitted credentials. *)
From Verif Require Import GoBase StatusModel JwtModel PexSpec PexModel VcModel VcParse VpModel WmModel MtModel.

(** a plain path as text: "$", then ".name" or "[number]" *)
Definition step_text (st : jstep) : string := match st with Name n => "." ++ n | Index i => "[" ++ itoa i ++ "]" end.
Fixpoint path_tail (l : list jstep) : string := match l with [] => "" | st :: l' => step_text st ++ path_tail l' end.
Definition path_text (l : list jstep) : string := "$" ++ path_tail l.
(** names are identifiers, indices are int64 *)
Fixpoint all_chars (p : ascii -> bool) (s : string) : bool := match s with EmptyString => true | String c s' => p c && all_chars p s' end.
Definition good_step (st : jstep) : Prop :=
  match st with Name n => starts letter n = true /\ all_chars (fun c => letter c || digit c)%bool n = true | Index i => Z.of_nat i < 2 ^ 63 end.
(** the value a path leads to; an index into an object reads the member named [ft i] *)
Inductive reaches (ft : nat -> string) : json -> list jstep -> json -> Prop :=
| re_here j : reaches ft j [] j
| re_name m n v l w : mget m n = Some v -> reaches ft v l w -> reaches ft (JObj m) (Name n :: l) w
| re_item a i v l w : nth_error a i = Some v -> reaches ft v l w -> reaches ft (JArr a) (Index i :: l) w
| re_key m i v l w : mget m (ft i) = Some v -> reaches ft v l w -> reaches ft (JObj m) (Index i :: l) w.
(** mappings all of whose paths are plain *)
Inductive plain_mapping : mapping -> Prop :=
| pm id fmt l nested : Forall good_step l -> (forall n, nested = Some n -> plain_mapping n) -> plain_mapping (Mapping id fmt (path_text l) nested).
(** the value a chain of plain paths leads to.  A path that starts with a name and leads nowhere is read as one into "vp" *)
Inductive leads (ft : nat -> string) : list jstep -> json -> json -> Prop :=
| le_direct l j v : reaches ft j l v -> leads ft l j v
| le_vp n l j v : (forall w, ~ reaches ft j (Name n :: l) w) -> reaches ft j (Name "vp" :: Name n :: l) v -> leads ft (Name n :: l) j v.
Inductive follows (ft : nat -> string) : mapping -> json -> json -> Prop :=
| fo_last id fmt l j v : Forall good_step l -> leads ft l j v -> follows ft (Mapping id fmt (path_text l) None) j v
| fo_nested id fmt l n j v w : Forall good_step l -> leads ft l j v -> follows ft n v w -> follows ft (Mapping id fmt (path_text l) (Some n)) j w.

(** [p] carries credentials whose JSON forms are [js]: as JSON, or in the "vp" claim of a JWT or CWT.  [fmt]: the presentation format of the descriptor map;
    "jwt_vp" is for JWTs and the like *)
Inductive carries (E : venv) (U : credential -> res json) (fmt : string) (p : presentation) (js : list json) : Prop :=
| ca_json : pr_jwt p = "" -> cwt_of p = None -> fmt <> "jwt_vp" -> map_res U (pr_creds p) = Ok js -> carries E U fmt p js
| ca_claims claims vp : typeless E U p = Ok (JObj claims) -> mget claims "vp" = Some (JObj vp) -> mget vp "verifiableCredential" = Some (JArr js) ->
    (fmt <> "jwt_vp" -> mget claims "verifiableCredential" = None) -> carries E U fmt p js.
(** a presentation for Match: one of the two contexts, one of the two types *)
Definition submission_vp (p : presentation) : Prop :=
  (In "https://identity.foundation/presentation-exchange/submission/v1" (pr_context p) \/ In "https://identity.foundation/credential-manifest/application/v1" (pr_context p)) /\
  (In "PresentationSubmission" (pr_types p) \/ In "CredentialApplication" (pr_types p)).

(** ** From the wallet to the verifier *)
(** the same definition in Match's terms *)
Definition match_desc_of (d : wdesc) : descriptor :=
  {| d_id := wd_id d; d_schema := match wd_schema d with Some s => s | None => [] end; d_constraints := option_map wc_base (wd_cons d) |}.
Definition m_format (m : mapping) : string := let '(Mapping _ f _ _) := m in f.
(** [p] is the presentation [v] that CreateVP made, as the verifier has it: context, type and submission (the order of a descriptor map is not fixed) *)
Definition received (v : wvp) (p : presentation) : Prop :=
  pr_context p = wv_context v /\ pr_types p = wv_type v /\
  exists id def maps maps', wv_custom v = [("presentation_submission", (id, def, maps))] /\ Permutation maps maps' /\
    mget (pr_custom p) "presentation_submission" = Some (submission_json id def maps').
