(** What the embedded schemas are meant to say, in words a reader of the W3C data model knows.  [fmt f s]: the text s has the
    format f ("uri", "date-time"); [re p s]: the text s matches the regular expression p. *)
From Verif Require Import GoBase SdSpec.

Definition is_str (d : json) : Prop := exists s, d = JStr s.
Definition is_obj (d : json) : Prop := exists m, d = JObj m.
(** the member, if there is one, is as described *)
Definition member (m : gomap json) (k : string) (P : json -> Prop) : Prop := forall x, mget m k = Some x -> P x.
Definition has (m : gomap json) (k : string) : Prop := exists x, mget m k = Some x.
(** a required member *)
Definition required (m : gomap json) (k : string) (P : json -> Prop) : Prop := exists x, mget m k = Some x /\ P x.
Definition object (P : gomap json -> Prop) (d : json) : Prop := exists m, d = JObj m /\ P m.
Definition array (P : list json -> Prop) (d : json) : Prop := exists l, d = JArr l /\ P l.
Definition each (P : json -> Prop) (l : list json) : Prop := forall x, In x l -> P x.
Definition some (P : json -> Prop) (l : list json) : Prop := exists x, In x l /\ P x.
Definition uri (fmt : string -> string -> bool) (d : json) : Prop := exists s, d = JStr s /\ fmt "uri" s = true.
Definition date_time (fmt : string -> string -> bool) (d : json) : Prop := exists s, d = JStr s /\ fmt "date-time" s = true.
Definition text_matching (re : string -> string -> bool) (p : string) (d : json) : Prop := exists s, d = JStr s /\ re p s = true.
(** no two entries are the same value *)
Definition distinct (l : list json) : Prop := ForallOrdPairs (fun x y => ~ jeq x y) l.
(** the type is this one, or a list that has this one *)
Definition typed (name : string) (d : json) : Prop := d = JStr name \/ array (In (JStr name)) d.
Definition one_of (ss : list string) (d : json) : Prop := exists s, d = JStr s /\ In s ss.

(** ** Data model 1.1 *)
Definition v1_uri : string := "https://www.w3.org/2018/credentials/v1".
(** the base context, alone or first of a list without repetitions whose other entries are texts or objects; or an empty list *)
Definition v1_contexts (d : json) : Prop :=
  d = JStr v1_uri \/ array (fun l => l = [] \/ exists r, l = JStr v1_uri :: r /\ each (fun x => is_obj x \/ is_str x) r /\ distinct l) d.
Definition v1_issuer (fmt : string -> string -> bool) (d : json) : Prop :=
  uri fmt d \/ object (fun m => required m "id" (uri fmt)) d.
(** an object with an id that is a URI and one type or a list of types *)
Definition v1_typed_id (fmt : string -> string -> bool) (d : json) : Prop :=
  object (fun m => required m "id" (uri fmt) /\ required m "type" (fun t => is_str t \/ array (each is_str) t)) d.
Definition v1_proof (d : json) : Prop := object (fun m => required m "type" is_str) d.
Definition or_null (P : json -> Prop) (d : json) : Prop := d = JNull \/ P d.
Record v1_credential (fmt : string -> string -> bool) (req : list string) (m : gomap json) : Prop := {
  v1_has_context : has m "@context";
  v1_has : forall k, In k req -> has m k;
  v1_context_ok : member m "@context" v1_contexts;
  v1_id_ok : member m "id" is_str;
  v1_type_ok : member m "type" (typed "VerifiableCredential");
  v1_subject_ok : member m "credentialSubject" (fun d => array (fun _ => True) d \/ is_obj d \/ is_str d);
  v1_issuer_ok : member m "issuer" (v1_issuer fmt);
  v1_issued_ok : member m "issuanceDate" (date_time fmt);
  v1_proof_ok : member m "proof" (or_null (fun d => v1_proof d \/ array (each v1_proof) d));
  v1_expires_ok : member m "expirationDate" (or_null (date_time fmt));
  v1_status_ok : member m "credentialStatus" (or_null (v1_typed_id fmt));
  v1_schema_ok : member m "credentialSchema" (or_null (fun d => v1_typed_id fmt d \/ array (each (or_null (v1_typed_id fmt))) d));
  v1_evidence_ok : member m "evidence" (or_null (fun d => v1_typed_id fmt d \/ array (each (or_null (v1_typed_id fmt))) d));
  v1_refresh_ok : member m "refreshService" (or_null (v1_typed_id fmt)) }.
(** presentations: only the first of several proofs is described *)
Record v1_presentation (fmt : string -> string -> bool) (m : gomap json) : Prop := {
  p1_has_context : has m "@context";
  p1_has_type : has m "type";
  p1_context_ok : member m "@context" v1_contexts;
  p1_id_ok : member m "id" is_str;
  p1_type_ok : member m "type" (typed "VerifiablePresentation");
  p1_creds_ok : member m "verifiableCredential" (or_null (fun d => array (fun _ => True) d \/ is_obj d \/ is_str d));
  p1_proof_ok : member m "proof" (fun d => v1_proof d \/ array (fun l => l = [] \/ exists p r, l = p :: r /\ v1_proof p) d);
  p1_refresh_ok : member m "refreshService" (v1_typed_id fmt) }.

(** ** Data model 2.0 *)
Definition v2_uri : string := "https://www.w3.org/ns/credentials/v2".
Definition nonempty (P : list json -> Prop) (l : list json) : Prop := l <> [] /\ P l.
Definition one_or_more (P : json -> Prop) (d : json) : Prop := P d \/ array (nonempty (each P)) d.
Definition v2_type (d : json) : Prop := is_str d \/ array (nonempty (fun _ => True)) d.
Definition v2_contexts (d : json) : Prop := array (In (JStr v2_uri)) d.
Definition v2_issuer (d : json) : Prop := is_str d \/ object (fun m => required m "id" is_str) d.
Definition v2_subject (d : json) : Prop := object (fun m => m <> [] /\ member m "id" is_str) d.
(** an object with a type, and (for a status, schema or refresh service) an id *)
Definition v2_typed (d : json) : Prop := object (fun m => member m "id" is_str /\ required m "type" v2_type) d.
Definition v2_typed_id (d : json) : Prop := object (fun m => required m "id" is_str /\ required m "type" v2_type) d.
Definition v2_method (d : json) : Prop :=
  is_str d \/ array (nonempty (each (object (fun m => required m "id" is_str /\ required m "type" is_str /\ required m "controller" is_str)))) d.
Definition v2_proof (created : gomap json -> Prop) (d : json) : Prop :=
  object (fun m => required m "type" v2_type /\ required m "proofPurpose" is_str /\ required m "verificationMethod" v2_method
    /\ created m /\ member m "domain" is_str /\ member m "challenge" is_str /\ member m "proofValue" is_str) d.
(** a date and time with a zone, somewhere in the text *)
Definition v2_time : string := "-?([1-9][0-9]{3,}|0[0-9]{3})-(0[1-9]|1[0-2])-(0[1-9]|[12][0-9]|3[01])T(([01][0-9]|2[0-3]):[0-5][0-9]:[0-5][0-9](\.[0-9]+)?|(24:00:00(\.0+)?))(Z|(\+|-)((0[0-9]|1[0-3]):[0-5][0-9]|14:00))".
Definition v2_created (m : gomap json) : Prop := member m "created" is_str.
Record v2_credential (re : string -> string -> bool) (req : list string) (m : gomap json) : Prop := {
  v2_has_context : has m "@context";
  v2_has : forall k, In k req -> has m k;
  v2_context_ok : member m "@context" v2_contexts;
  v2_id_ok : member m "id" is_str;
  v2_type_ok : member m "type" (typed "VerifiableCredential");
  v2_subject_ok : member m "credentialSubject" (one_or_more v2_subject);
  v2_issuer_ok : member m "issuer" v2_issuer;
  v2_from_ok : member m "validFrom" (text_matching re v2_time);
  v2_until_ok : member m "validUntil" (text_matching re v2_time);
  v2_status_ok : member m "credentialStatus" (one_or_more v2_typed_id);
  v2_schema_ok : member m "credentialSchema" (one_or_more v2_typed_id);
  v2_refresh_ok : member m "refreshService" (one_or_more v2_typed_id);
  v2_terms_ok : member m "termsOfUse" (one_or_more v2_typed);
  v2_evidence_ok : member m "evidence" (one_or_more v2_typed);
  v2_proof_ok : member m "proof" (one_or_more (v2_proof v2_created));
  v2_chain_ok : member m "proofChain" (array (nonempty (each (v2_proof v2_created)))) }.
Record v2_presentation (re : string -> string -> bool) (m : gomap json) : Prop := {
  p2_has_context : has m "@context";
  p2_has_type : has m "type";
  p2_context_ok : member m "@context" v2_contexts;
  p2_id_ok : member m "id" is_str;
  p2_type_ok : member m "type" (typed "VerifiablePresentation");
  p2_creds_ok : member m "verifiableCredential" (or_null (fun d => array (fun _ => True) d \/ is_obj d \/ is_str d));
  p2_proof_ok : member m "proof" (one_or_more (v2_proof (fun m => required m "created" (text_matching re v2_time))));
  p2_chain_ok : member m "proofChain" (array (nonempty (each (v2_proof (fun m => required m "created" (text_matching re v2_time)))))) }.
