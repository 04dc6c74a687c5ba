(** Vocabulary and specification for verifiable credentials (verifiable/credential.go and its neighbours). *)
From Verif Require Import GoBase JwtSpec DiSpec.

(** util/time/time.go:20-23 TimeWrapper: an instant and the text it was read from ("" when made from a time.Time) *)
Record twrap := { tw_time : gtime; tw_str : string }.

(** Environment of the data model: Go's time package and fmt.
    [te_parse]: time.Parse(time.RFC3339, s).  [te_nano]: Format(time.RFC3339Nano).
    [te_rfc n]: the instant n seconds after the Unix epoch, in UTC, formatted with time.RFC3339.
    [te_sprint]: fmt.Sprint of a decoded JSON value that is neither nil nor a string. *)
Record tenv := {
  te_parse : string -> option gtime;
  te_nano : gtime -> string;
  te_rfc : Z -> string;
  te_sprint : json -> string
}.

(** verifiable/credential.go:744-748, 785-789, common.go:139-144, credential.go:840-845, 821-837 *)
Record issuer := { is_id : string; is_custom : gomap json }.
Record subject := { sj_id : string; sj_custom : gomap json }.
Record typedid := { ti_id : string; ti_type : string; ti_custom : gomap json }.
Record relres := { rr_id : string; rr_sri : string; rr_mb : string; rr_media : string }.
Record contents := {
  vc_context : list string; vc_custom_ctx : list json; vc_id : string; vc_types : list string;
  vc_subject : list subject; vc_issuer : option issuer; vc_issued : option twrap; vc_expired : option twrap;
  vc_status : list typedid; vc_schemas : list typedid; vc_evidence : option json; vc_terms : list typedid;
  vc_refresh : option typedid; vc_sdalg : option hashalg; vc_related : list relres }.

Definition v1_context : string := "https://www.w3.org/2018/credentials/v1".
Definition v2_context : string := "https://www.w3.org/ns/credentials/v2".

(** seconds since the Unix epoch (time.Time.Unix) and back *)
Definition unix (t : gtime) : Z := gt_ns t / 1000000000 - 62135596800.
Definition of_unix (n : Z) : gtime := {| gt_ns := (n + 62135596800) * 1000000000; gt_off := 0 |}.

(** *** Contents that the JSON form can carry. *)
Definition no_key {V} (k : string) (m : gomap V) : Prop := ~ In k (map fst m).
Definition is_string (j : json) : Prop := exists s, j = JStr s.
Definition expressible (c : contents) : Prop :=
  (* a credential has a context and a type; object contexts start with something that is not a string *)
  (vc_context c <> [] \/ vc_custom_ctx c <> [])
  /\ (forall j l, vc_custom_ctx c = j :: l -> ~ is_string j)
  /\ vc_types c <> []
  (* names of extra members do not clash with the members of the object they sit in *)
  /\ (forall s, In s (vc_subject c) -> no_key "id" (sj_custom s))
  /\ (forall i, vc_issuer c = Some i -> is_id i <> "" /\ no_key "id" (is_custom i))
  /\ (forall t, In t (vc_status c) \/ In t (vc_schemas c) \/ In t (vc_terms c) \/ vc_refresh c = Some t ->
        no_key "id" (ti_custom t) /\ no_key "type" (ti_custom t))
  /\ vc_evidence c <> Some JNull.

(** Two times are the same time, written the same way. *)
Definition tw_text (E : tenv) (t : twrap) : string :=
  if String.eqb (tw_str t) "" then te_nano E (tw_time t) else tw_str t.
(** a time value that its own text denotes: made from a time.Time, or read from a text *)
Definition good_time (E : tenv) (t : twrap) : Prop := te_parse E (tw_text E t) = Some (tw_time t).
Definition same_time (E : tenv) (a b : twrap) : Prop := tw_time a = tw_time b /\ tw_text E a = tw_text E b.
Definition same_opt {A} (R : A -> A -> Prop) (a b : option A) : Prop :=
  match a, b with None, None => True | Some x, Some y => R x y | _, _ => False end.

(** Equality of contents, except that times are compared as times and texts. *)
Definition same_contents (E : tenv) (a b : contents) : Prop :=
  vc_context a = vc_context b /\ vc_custom_ctx a = vc_custom_ctx b /\ vc_id a = vc_id b /\ vc_types a = vc_types b
  /\ vc_subject a = vc_subject b /\ vc_issuer a = vc_issuer b
  /\ same_opt (same_time E) (vc_issued a) (vc_issued b) /\ same_opt (same_time E) (vc_expired a) (vc_expired b)
  /\ vc_status a = vc_status b /\ vc_schemas a = vc_schemas b /\ vc_evidence a = vc_evidence b
  /\ vc_terms a = vc_terms b /\ vc_refresh a = vc_refresh b /\ vc_sdalg a = vc_sdalg b
  /\ vc_related a = vc_related b.

(** *** What the typed view of a credential says about its JSON object. *)
Definition absent (m : gomap json) (k : string) : Prop := mget m k = None \/ mget m k = Some JNull.
Definition text_member (m : gomap json) (k s : string) : Prop :=
  mget m k = Some (JStr s) \/ (absent m k /\ s = "").
(** all members of [o] except the listed ones *)
Definition others (o : gomap json) (ks : list string) (custom : gomap json) : Prop :=
  forall k, mget custom k = if str_in k ks then None else mget o k.
Definition typed_in (o : gomap json) (t : typedid) : Prop :=
  text_member o "id" (ti_id t) /\ text_member o "type" (ti_type t) /\ others o ["id"; "type"] (ti_custom t).
Definition subject_in (o : gomap json) (s : subject) : Prop :=
  text_member o "id" (sj_id s) /\ others o ["id"] (sj_custom s).
(** a single object, or an array of objects, or nothing *)
Inductive one_or_many {A} (R : gomap json -> A -> Prop) (m : gomap json) (k : string) : list A -> Prop :=
| om_none : absent m k -> one_or_many R m k []
| om_one o a : mget m k = Some (JObj o) -> R o a -> one_or_many R m k [a]
| om_many l xs : mget m k = Some (JArr l) -> Forall2 (fun j a => exists o, j = JObj o /\ R o a) l xs ->
    one_or_many R m k xs.
Definition issuer_in (m : gomap json) (i : option issuer) : Prop :=
  match i with
  | None => absent m "issuer"
  | Some i => is_id i <> "" /\
      ((mget m "issuer" = Some (JStr (is_id i)) /\ is_custom i = []) \/
       (exists o, mget m "issuer" = Some (JObj o) /\ mget o "id" = Some (JStr (is_id i)) /\ others o ["id"] (is_custom i)))
  end.
(** RFC 3339, a missing zone meaning UTC *)
Definition denotes (E : tenv) (s : string) (t : gtime) : Prop :=
  te_parse E s = Some t \/ (te_parse E s = None /\ te_parse E (s ++ "Z") = Some t).
(** the date member of data model 1.1 if present, else that of 2.0 *)
Definition date_in (E : tenv) (m : gomap json) (k1 k2 : string) (t : option twrap) : Prop :=
  match t with
  | None => absent m k1 /\ absent m k2
  | Some t => exists s, (mget m k1 = Some (JStr s) \/ (absent m k1 /\ mget m k2 = Some (JStr s)))
                /\ tw_str t = s /\ denotes E s (tw_time t)
  end.
(** the text of a member: its string, nothing if absent, its rendering otherwise *)
Definition text_of (E : tenv) (o : gomap json) (k s : string) : Prop :=
  text_member o k s \/ exists j, mget o k = Some j /\ j <> JNull /\ (forall t, j <> JStr t) /\ s = te_sprint E j.
Definition related_in (E : tenv) (o : gomap json) (r : relres) : Prop :=
  text_of E o "id" (rr_id r) /\ text_of E o "digestSRI" (rr_sri r) /\ text_of E o "digestMultibase" (rr_mb r)
  /\ text_of E o "mediaType" (rr_media r).
Definition view (E : tenv) (m : gomap json) (c : contents) : Prop :=
  text_member m "id" (vc_id c)
  /\ (mget m "type" = Some (JArr (map JStr (vc_types c))) \/ exists t, mget m "type" = Some (JStr t) /\ vc_types c = [t])
  /\ (mget m "@context" = Some (JArr (map JStr (vc_context c) ++ vc_custom_ctx c)%list)
      \/ exists s, mget m "@context" = Some (JStr s) /\ vc_context c = [s] /\ vc_custom_ctx c = [])
  /\ issuer_in m (vc_issuer c)
  /\ (one_or_many subject_in m "credentialSubject" (vc_subject c)
      \/ exists s, mget m "credentialSubject" = Some (JStr s) /\ vc_subject c = [{| sj_id := s; sj_custom := [] |}])
  /\ date_in E m "issuanceDate" "validFrom" (vc_issued c)
  /\ date_in E m "expirationDate" "validUntil" (vc_expired c)
  /\ one_or_many typed_in m "credentialStatus" (vc_status c)
  /\ one_or_many typed_in m "credentialSchema" (vc_schemas c)
  /\ one_or_many typed_in m "termsOfUse" (vc_terms c)
  /\ (match vc_evidence c with None => absent m "evidence" | Some j => mget m "evidence" = Some j end)
  /\ (exists l, one_or_many typed_in m "refreshService" l /\ vc_refresh c = hd_error l)
  /\ one_or_many (related_in E) m "relatedResource" (vc_related c)
  (* "relatedResource" must be an array *)
  /\ (forall o, mget m "relatedResource" <> Some (JObj o)).
