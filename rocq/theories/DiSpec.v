(** Vocabulary and specification for data integrity proofs (dataintegrity/...). *)
From Verif Require Import GoBase JwtSpec.

(** time.Time: nanoseconds since 0001-01-01T00:00:00Z, and the zone offset it is rendered in. *)
Record gtime := { gt_ns : Z; gt_off : Z }.
Definition zero_time : gtime := {| gt_ns := 0; gt_off := 0 |}.
Definition is_zero (t : gtime) : bool := gt_ns t =? 0.

(** dataintegrity/models/models.go:37-49 Proof: all fields are strings, "" when absent *)
Record dproof := {
  p_id : string; p_type : string; p_suite : string; p_purpose : string; p_vm : string; p_created : string;
  p_expires : string; p_domain : string; p_challenge : string; p_value : string; p_prev : string }.

(** A verification method of a DID document (did-go did.VerificationMethod): its id, its JWK if it has one,
    its raw key bytes. *)
Record dmethod := { dm_id : string; dm_jwk : option jwk; dm_value : string }.
(** The sections of a DID document that reference verification methods. *)
Inductive section := SecGeneral | SecAuthentication | SecAssertion | SecDelegation | SecInvocation | SecAgreement.
Definition ddoc := list (section * dmethod).

(** The key handed to a signature verifier: a JWK or raw bytes. *)
Inductive dkey := KJwk (j : jwk) | KBytes (b : string).
(** Signature algorithms of the two suites. *)
Inductive dalg := AP256 | AP384 | AEd25519.

(** Environment: RFC 3339 parsing and rendering of times, RDF canonicalisation (with the document loader of the suite,
    per hash algorithm), hash functions, multibase, compressed point expansion, signature checks. *)
Record dienv := {
  d_parse : string -> option gtime;
  d_fmt : gtime -> string;
  d_canon : hashalg -> gomap json -> res string;
  d_hash : hashalg -> string -> string;
  d_mbdec : string -> option string;
  d_mbenc : string -> string;
  d_point : curve -> string -> string;
  d_verify : dalg -> dkey -> string -> string -> bool     (* algorithm, key, message, signature *)
}.

(** *** What a data integrity proof claims. *)

(** The section that authorises a purpose; assertionMethod may also use the general section. *)
Inductive authorised : string -> section -> Prop :=
| au_assert : authorised "assertionMethod" SecAssertion
| au_general : authorised "assertionMethod" SecGeneral
| au_auth : authorised "authentication" SecAuthentication
| au_deleg : authorised "capabilityDelegation" SecDelegation
| au_inv : authorised "capabilityInvocation" SecInvocation.

(** [did#fragment]: exactly one '#'. *)
Definition hash_char : ascii := "#"%char.
Definition did_url (s did frag : string) : Prop :=
  s = did ++ String hash_char frag /\ ~ char_in hash_char did /\ ~ char_in hash_char frag.

(** The fragment of a method id: the text between the first '#' and the next one (or the end); the whole id when it has
    no '#'. *)
Inductive fragment_of : string -> string -> Prop :=
| fo_none s : ~ char_in hash_char s -> fragment_of s s
| fo_one a b : ~ char_in hash_char a -> ~ char_in hash_char b -> fragment_of (a ++ String hash_char b) b
| fo_more a b c : ~ char_in hash_char a -> ~ char_in hash_char b ->
    fragment_of (a ++ String hash_char (b ++ String hash_char c)) b.

(** [names resolve purpose id vm]: [id] is a DID URL whose DID resolves to a document that lists [vm] in a section
    authorised for the purpose, under that fragment. *)
Definition names (resolve : string -> res ddoc) (purpose id : string) (vm : dmethod) : Prop :=
  exists did frag doc sec, did_url id did frag /\ resolve did = Ok doc /\ In (sec, vm) doc
    /\ authorised purpose sec /\ fragment_of (dm_id vm) frag.

(** The signed proof configuration: what the suites hash next to the document. *)
Definition opt_field (k v : string) : gomap json := if String.eqb v "" then [] else [(k, JStr v)].
Definition opt_text (k : string) (v : option string) : gomap json :=
  match v with Some s => [(k, JStr s)] | None => [] end.
Definition config (ctx : json) (suite vmid purpose : string) (created expires : option string)
    (challenge domain : string) : gomap json :=
  ([("@context", ctx); ("type", JStr "DataIntegrityProof"); ("cryptosuite", JStr suite);
    ("verificationMethod", JStr vmid); ("proofPurpose", JStr purpose)]
   ++ opt_text "created" created ++ opt_text "expires" expires
   ++ opt_field "challenge" challenge ++ opt_field "domain" domain)%list.

Definition context_of (doc : gomap json) : json := match mget doc "@context" with Some c => c | None => JNull end.

(** algorithm, hash and key of a method for a suite name *)
Definition multikey_alg (b0 b1 : ascii) (a : dalg) : Prop :=
  let h := (N_of_ascii b0, N_of_ascii b1) in
  match a with
  | AP256 => h = (128, 36)%N \/ h = (18, 0)%N
  | AP384 => h = (129, 36)%N \/ h = (18, 1)%N
  | AEd25519 => False
  end.
Definition alg_curve (a : dalg) : curve := match a with AP384 => P384 | _ => P256 end.
Inductive suite_key (E : dienv) : string -> dmethod -> dalg -> hashalg -> dkey -> Prop :=
| sk_p256 n vm j : n = "ecdsa-2019" \/ n = "ecdsa-rdfc-2019" -> dm_jwk vm = Some j -> jk_crv j = "P-256" ->
    suite_key E n vm AP256 SHA256 (KJwk j)
| sk_p384 n vm j : n = "ecdsa-2019" \/ n = "ecdsa-rdfc-2019" -> dm_jwk vm = Some j -> jk_crv j = "P-384" ->
    suite_key E n vm AP384 SHA384 (KJwk j)
| sk_multi n vm b0 b1 rest a h : n = "ecdsa-2019" \/ n = "ecdsa-rdfc-2019" -> dm_jwk vm = None ->
    dm_value vm = String b0 (String b1 rest) -> rest <> "" -> multikey_alg b0 b1 a ->
    h = (match a with AP384 => SHA384 | _ => SHA256 end) ->
    suite_key E n vm a h (KBytes (d_point E (alg_curve a) rest))
| sk_ed n vm j : n = "eddsa-rdfc-2022" \/ n = "eddsa-2022" -> dm_jwk vm = Some j ->
    suite_key E n vm AEd25519 SHA256 (KJwk j)
| sk_edraw n vm : n = "eddsa-rdfc-2022" \/ n = "eddsa-2022" -> dm_jwk vm = None -> dm_value vm <> "" ->
    suite_key E n vm AEd25519 SHA256 (KBytes (dm_value vm)).

(** [message E h doc cfg m]: the bytes that are signed: hash of the configuration, then hash of the document. *)
Definition message (E : dienv) (h : hashalg) (doc cfg : gomap json) (m : string) : Prop :=
  exists cd cc, d_canon E h doc = Ok cd /\ d_canon E h cfg = Ok cc /\ m = d_hash E h cc ++ d_hash E h cd.

(** [signed_by E suite vm doc cfg value]: [value] is a multibase signature by the key of [vm], under the suite's
    algorithm, of document and configuration. *)
Definition signed_by (E : dienv) (suite : string) (vm : dmethod) (doc cfg : gomap json) (value : string) : Prop :=
  exists a h k sig m, suite_key E suite vm a h k /\ d_mbdec E value = Some sig /\ message E h doc cfg m
    /\ d_verify E a k m sig = true.

(** The text of a time field as the configuration carries it: the field parsed and rendered again (nothing when the
    field is absent or is the zero time). *)
Definition time_text (E : dienv) (f : string) (out : option string) : Prop :=
  (f = "" /\ out = None) \/
  (exists t, f <> "" /\ d_parse E f = Some t /\ out = if is_zero t then None else Some (d_fmt E t)).
