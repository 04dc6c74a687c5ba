(** Model of dataintegrity/verifier.go, dataintegrity/signer.go, dataintegrity/suite/ecdsa2019 and
    dataintegrity/suite/eddsa2022.
    Documents are JSON values with unique member names (the code works on the text with gjson/sjson; malformed text and
    repeated names are outside this model). *)
From Verif Require Import GoBase JwtSpec DiSpec.

(** models.go:51-63 ProofOptions (CustomFields is not read by any modelled function).  Go passes a pointer, so every
    function below returns the options as it leaves them. *)
Record popts := {
  o_purpose : string; o_vmid : string; o_vm : option dmethod; o_ptype : string; o_suite : string;
  o_domain : string; o_challenge : string; o_created : gtime; o_expires : gtime }.
Definition set_suite (o : popts) (s : string) : popts :=
  {| o_purpose := o_purpose o; o_vmid := o_vmid o; o_vm := o_vm o; o_ptype := o_ptype o; o_suite := s;
     o_domain := o_domain o; o_challenge := o_challenge o; o_created := o_created o; o_expires := o_expires o |}.
Definition set_created (o : popts) (t : gtime) : popts :=
  {| o_purpose := o_purpose o; o_vmid := o_vmid o; o_vm := o_vm o; o_ptype := o_ptype o; o_suite := o_suite o;
     o_domain := o_domain o; o_challenge := o_challenge o; o_created := t; o_expires := o_expires o |}.
Definition set_expires (o : popts) (t : gtime) : popts :=
  {| o_purpose := o_purpose o; o_vmid := o_vmid o; o_vm := o_vm o; o_ptype := o_ptype o; o_suite := o_suite o;
     o_domain := o_domain o; o_challenge := o_challenge o; o_created := o_created o; o_expires := t |}.
Definition set_vmid (o : popts) (s : string) : popts :=
  {| o_purpose := o_purpose o; o_vmid := s; o_vm := o_vm o; o_ptype := o_ptype o; o_suite := o_suite o;
     o_domain := o_domain o; o_challenge := o_challenge o; o_created := o_created o; o_expires := o_expires o |}.
Definition set_vm (o : popts) (v : dmethod) : popts :=
  {| o_purpose := o_purpose o; o_vmid := o_vmid o; o_vm := Some v; o_ptype := o_ptype o; o_suite := o_suite o;
     o_domain := o_domain o; o_challenge := o_challenge o; o_created := o_created o; o_expires := o_expires o |}.

(** Computations that may change the options and fail. *)
Definition st (A : Type) := popts -> popts * res A.
Definition sret {A} (r : res A) : st A := fun o => (o, r).
Definition sbind {A B} (m : st A) (f : A -> st B) : st B :=
  fun o => match m o with
           | (o', Ok a) => f a o'
           | (o', Err e) => (o', Err e)
           | (o', Panic) => (o', Panic)
           end.
Notation "'do*' x := r 'in' k" := (sbind r (fun x => k))
  (at level 200, x pattern, r at level 100, k at level 200, right associativity).
Definition sget : st popts := fun o => (o, Ok o).
Definition sput (f : popts -> popts) : st unit := fun o => (f o, Ok tt).
Definition sguard (b : bool) (e : string) : st unit := sret (guard b e).

(** ** encoding/json into models.Proof: member names match fields case-insensitively, a later member overwrites,
    null leaves the field alone, any other non-string is an error. *)
Definition empty_proof : dproof :=
  {| p_id := ""; p_type := ""; p_suite := ""; p_purpose := ""; p_vm := ""; p_created := ""; p_expires := "";
     p_domain := ""; p_challenge := ""; p_value := ""; p_prev := "" |}.
Definition proof_fields : list (string * (dproof -> string -> dproof)) :=
  [("id", fun p s => {| p_id := s; p_type := p_type p; p_suite := p_suite p; p_purpose := p_purpose p; p_vm := p_vm p;
      p_created := p_created p; p_expires := p_expires p; p_domain := p_domain p; p_challenge := p_challenge p;
      p_value := p_value p; p_prev := p_prev p |});
   ("type", fun p s => {| p_id := p_id p; p_type := s; p_suite := p_suite p; p_purpose := p_purpose p; p_vm := p_vm p;
      p_created := p_created p; p_expires := p_expires p; p_domain := p_domain p; p_challenge := p_challenge p;
      p_value := p_value p; p_prev := p_prev p |});
   ("cryptosuite", fun p s => {| p_id := p_id p; p_type := p_type p; p_suite := s; p_purpose := p_purpose p;
      p_vm := p_vm p; p_created := p_created p; p_expires := p_expires p; p_domain := p_domain p;
      p_challenge := p_challenge p; p_value := p_value p; p_prev := p_prev p |});
   ("proofPurpose", fun p s => {| p_id := p_id p; p_type := p_type p; p_suite := p_suite p; p_purpose := s;
      p_vm := p_vm p; p_created := p_created p; p_expires := p_expires p; p_domain := p_domain p;
      p_challenge := p_challenge p; p_value := p_value p; p_prev := p_prev p |});
   ("verificationMethod", fun p s => {| p_id := p_id p; p_type := p_type p; p_suite := p_suite p;
      p_purpose := p_purpose p; p_vm := s; p_created := p_created p; p_expires := p_expires p; p_domain := p_domain p;
      p_challenge := p_challenge p; p_value := p_value p; p_prev := p_prev p |});
   ("created", fun p s => {| p_id := p_id p; p_type := p_type p; p_suite := p_suite p; p_purpose := p_purpose p;
      p_vm := p_vm p; p_created := s; p_expires := p_expires p; p_domain := p_domain p;
      p_challenge := p_challenge p; p_value := p_value p; p_prev := p_prev p |});
   ("expires", fun p s => {| p_id := p_id p; p_type := p_type p; p_suite := p_suite p; p_purpose := p_purpose p;
      p_vm := p_vm p; p_created := p_created p; p_expires := s; p_domain := p_domain p;
      p_challenge := p_challenge p; p_value := p_value p; p_prev := p_prev p |});
   ("domain", fun p s => {| p_id := p_id p; p_type := p_type p; p_suite := p_suite p; p_purpose := p_purpose p;
      p_vm := p_vm p; p_created := p_created p; p_expires := p_expires p; p_domain := s;
      p_challenge := p_challenge p; p_value := p_value p; p_prev := p_prev p |});
   ("challenge", fun p s => {| p_id := p_id p; p_type := p_type p; p_suite := p_suite p; p_purpose := p_purpose p;
      p_vm := p_vm p; p_created := p_created p; p_expires := p_expires p; p_domain := p_domain p;
      p_challenge := s; p_value := p_value p; p_prev := p_prev p |});
   ("proofValue", fun p s => {| p_id := p_id p; p_type := p_type p; p_suite := p_suite p; p_purpose := p_purpose p;
      p_vm := p_vm p; p_created := p_created p; p_expires := p_expires p; p_domain := p_domain p;
      p_challenge := p_challenge p; p_value := s; p_prev := p_prev p |});
   ("previousProof", fun p s => {| p_id := p_id p; p_type := p_type p; p_suite := p_suite p; p_purpose := p_purpose p;
      p_vm := p_vm p; p_created := p_created p; p_expires := p_expires p; p_domain := p_domain p;
      p_challenge := p_challenge p; p_value := p_value p; p_prev := s |})].
Fixpoint find_field (fs : list (string * (dproof -> string -> dproof))) (k : string) : option (dproof -> string -> dproof) :=
  match fs with [] => None | (n, f) :: fs' => if equal_fold n k then Some f else find_field fs' k end.
Fixpoint fill_proof (ms : gomap json) (p : dproof) : res dproof :=
  match ms with
  | [] => Ok p
  | (k, v) :: ms' =>
      match find_field proof_fields k, v with
      | None, _ => fill_proof ms' p
      | Some _, JNull => fill_proof ms' p
      | Some f, JStr s => fill_proof ms' (f p s)
      | Some _, _ => Err "malformed proof"
      end
  end.
Definition unmarshal_proof (j : json) : res dproof :=
  match j with JObj ms => fill_proof ms empty_proof | JNull => Ok empty_proof | _ => Err "malformed proof" end.
(** encoding/json of models.Proof (models.go:37-49: omitempty on all fields but type, proofPurpose,
    verificationMethod, proofValue) *)
Definition marshal_proof (p : dproof) : json :=
  JObj (opt_field "id" (p_id p) ++ [("type", JStr (p_type p))] ++ opt_field "cryptosuite" (p_suite p)
        ++ [("proofPurpose", JStr (p_purpose p)); ("verificationMethod", JStr (p_vm p))]
        ++ opt_field "created" (p_created p) ++ opt_field "expires" (p_expires p)
        ++ opt_field "domain" (p_domain p) ++ opt_field "challenge" (p_challenge p)
        ++ [("proofValue", JStr (p_value p))] ++ opt_field "previousProof" (p_prev p))%list.

(** ** Verification method resolution (dataintegrity/signer.go) *)

(** signer.go:216-223 vmIDFragmentOnly *)
Definition vm_fragment (id : string) : string :=
  match split_on hash_char id with
  | [x] => x
  | _ :: y :: _ => y
  | [] => ""
  end.
(** signer.go:206-214 getVM *)
Fixpoint get_vm (frag : string) (vms : list dmethod) : option dmethod :=
  match vms with
  | [] => None
  | v :: vs => if String.eqb frag (vm_fragment (dm_id v)) then Some v else get_vm frag vs
  end.
(** did-go Doc.VerificationMethods(r)[r]: the methods of one section, in document order *)
Definition section_eqb (a b : section) : bool :=
  match a, b with
  | SecGeneral, SecGeneral | SecAuthentication, SecAuthentication | SecAssertion, SecAssertion
  | SecDelegation, SecDelegation | SecInvocation, SecInvocation | SecAgreement, SecAgreement => true
  | _, _ => false
  end.
Definition methods (d : ddoc) (s : section) : list dmethod :=
  map snd (filter (fun e => section_eqb (fst e) s) d).
(** signer.go:165-204 getVMByPurpose *)
Definition get_vm_by_purpose (purpose id : string) (d : ddoc) : res dmethod :=
  let frag := vm_fragment id in
  let* found :=
    (if String.eqb purpose "assertionMethod" then
       Ok (match get_vm frag (methods d SecAssertion) with
           | Some v => Some v
           | None => get_vm frag (methods d SecGeneral)
           end)
     else if String.eqb purpose "authentication" then Ok (get_vm frag (methods d SecAuthentication))
     else if String.eqb purpose "capabilityDelegation" then Ok (get_vm frag (methods d SecDelegation))
     else if String.eqb purpose "capabilityInvocation" then Ok (get_vm frag (methods d SecInvocation))
     else Err "purpose not supported") in
  match found with Some v => Ok v | None => Err "unable to find matching key IDs" end.
(** signer.go:239-246 getDIDFromVerificationMethod *)
Definition did_of_vm (id : string) : res string :=
  match split_on hash_char id with
  | [d; _] => Ok d
  | _ => Err "verificationMethod value should be in did#keyID format"
  end.
(** signer.go:225-237 getDIDDocFromVerificationMethod *)
Definition did_doc_of_vm (resolve : string -> res ddoc) (id : string) : res ddoc :=
  let* did := did_of_vm id in resolve did.
(** signer.go:137-163 resolveVM ([None]: no resolver configured) *)
Definition resolve_vm (resolver : option (string -> res ddoc)) (vmid : string) : st unit :=
  do* o := sget in
  match o_vm o with
  | Some _ => sret (Ok tt)
  | None =>
      do* _ := sput (fun o => if String.eqb (o_vmid o) "" then set_vmid o vmid else o) in
      match resolver with
      | None => sret (Err "ErrNoResolver")
      | Some resolve =>
          do* o := sget in
          do* doc := sret (did_doc_of_vm resolve (o_vmid o)) in
          do* vm := sret (get_vm_by_purpose (o_purpose o) (o_vmid o) doc) in
          sput (fun o => set_vm o vm)
      end
  end.

(** ** Cryptographic suites *)

(** suite.go:27-42 Verifier and Signer *)
Record vsuite := { vs_verify : json -> dproof -> st unit; vs_req : bool }.
Record ssuite := { ss_create : json -> st dproof; ss_req : bool }.

(** ecdsa2019.go:402-428 and eddsa2022.go:309-340 proofConfig (a Go map filled by assignment) *)
Definition time_field (E : dienv) (t : gtime) : string := if is_zero t then "" else d_fmt E t.
Definition proof_config (E : dienv) (ctx : json) (suite : string) (o : popts) : gomap json :=
  let m := [("@context", ctx); ("type", JStr "DataIntegrityProof"); ("cryptosuite", JStr suite);
            ("verificationMethod", JStr (o_vmid o)); ("proofPurpose", JStr (o_purpose o))] in
  let m := if is_zero (o_created o) then m else mset m "created" (JStr (d_fmt E (o_created o))) in
  let m := if is_zero (o_expires o) then m else mset m "expires" (JStr (d_fmt E (o_expires o))) in
  let m := if String.eqb (o_challenge o) "" then m else mset m "challenge" (JStr (o_challenge o)) in
  if String.eqb (o_domain o) "" then m else mset m "domain" (JStr (o_domain o)).
(** ecdsa2019.go:391-400, eddsa2022.go:298-307 hashData *)
Definition hash_data (E : dienv) (h : hashalg) (cdoc cconf : string) : string := d_hash E h cconf ++ d_hash E h cdoc.
(** json.Unmarshal(doc, &docData) into a map *)
Definition doc_map (doc : json) : res (gomap json) :=
  match doc with JObj m => Ok m | JNull => Ok [] | _ => Err "suite expects JSON-LD payload" end.

(** ecdsa2019.go:256-316 the key, hash and verifier of a method.  [opts.VerificationMethod] is dereferenced: a nil one
    panics. *)
Definition ascii2 (a b : N) : string := String (ascii_of_N a) (String (ascii_of_N b) "").
Definition ecdsa_key (E : dienv) (vm : dmethod) : res (dalg * hashalg * dkey) :=
  match dm_jwk vm with
  | Some j =>
      if String.eqb (jk_crv j) "P-256" then Ok (AP256, SHA256, KJwk j)
      else if String.eqb (jk_crv j) "P-384" then Ok (AP384, SHA384, KJwk j)
      else Err "unsupported ECDSA curve"
  | None =>
      if Nat.ltb 2 (String.length (dm_value vm)) then
        let header := substring 0 2 (dm_value vm) in
        let rest := substring 2 (String.length (dm_value vm) - 2) (dm_value vm) in
        if String.eqb header (ascii2 128 36) || String.eqb header (ascii2 18 0)
        then Ok (AP256, SHA256, KBytes (d_point E P256 rest))
        else if String.eqb header (ascii2 129 36) || String.eqb header (ascii2 18 1)
        then Ok (AP384, SHA384, KBytes (d_point E P384 rest))
        else Err "unsupported ECDSA curve"
      else Err "verification method needs JWK"
  end.
(** ecdsa2019.go:246-348 transformAndHash *)
Definition ecdsa_transform (E : dienv) (doc : json) : st (string * dalg * dkey) :=
  do* _ := sput (fun o => if String.eqb (o_suite o) "" then set_suite o "ecdsa-2019" else o) in
  do* m := sret (doc_map doc) in
  do* o := sget in
  do* vm := sret (match o_vm o with Some v => Ok v | None => Panic end) in
  do* ahk := sret (ecdsa_key E vm) in
  let '(a, h, k) := ahk in
  do* _ := sguard (String.eqb (o_ptype o) "DataIntegrityProof"
                   && (String.eqb (o_suite o) "ecdsa-2019" || String.eqb (o_suite o) "ecdsa-rdfc-2019"))
                  "ErrProofTransformation" in
  do* cdoc := sret (d_canon E h m) in
  do* cconf := sret (d_canon E h (proof_config E (context_of m) (o_suite o) o)) in
  sret (Ok (hash_data E h cdoc cconf, a, k)).
(** eddsa2022.go:213-261 transformAndHash *)
Definition eddsa_key (vm : dmethod) : res dkey :=
  match dm_jwk vm with
  | Some j => Ok (KJwk j)
  | None => if Nat.ltb 0 (String.length (dm_value vm)) then Ok (KBytes (dm_value vm))
            else Err "verification method needs JWK"
  end.
Definition eddsa_transform (E : dienv) (doc : json) : st (string * dalg * dkey) :=
  do* m := sret (doc_map doc) in
  do* o := sget in
  do* vm := sret (match o_vm o with Some v => Ok v | None => Panic end) in
  do* k := sret (eddsa_key vm) in
  do* _ := sguard (String.eqb (o_ptype o) "DataIntegrityProof"
                   && (String.eqb (o_suite o) "eddsa-rdfc-2022" || String.eqb (o_suite o) "eddsa-2022"))
                  "ErrProofTransformation" in
  do* cdoc := sret (d_canon E SHA256 m) in
  do* cconf := sret (d_canon E SHA256
     (proof_config E (context_of m) (if String.eqb (o_suite o) "" then "eddsa-rdfc-2022" else o_suite o) o)) in
  sret (Ok (hash_data E SHA256 cdoc cconf, AEd25519, k)).
(** ecdsa2019.go:352-369, eddsa2022.go:264-281 VerifyProof *)
Definition suite_verify (E : dienv) (transform : json -> st (string * dalg * dkey)) (doc : json) (p : dproof) : st unit :=
  do* mak := transform doc in
  let '(m, a, k) := mak in
  do* sig := sret (match d_mbdec E (p_value p) with Some s => Ok s | None => Err "decoding proofValue" end) in
  sguard (d_verify E a k m sig) "failed to verify DI proof".
(** ecdsa2019.go:189-227 and eddsa2022.go:176-210 CreateProof: [name]: the cryptosuite text written into the proof;
    [signer]: SignerGetter(vmKey.JWK).Sign. *)
Definition key_jwk (k : dkey) : option jwk := match k with KJwk j => Some j | KBytes _ => None end.
Definition suite_create (E : dienv) (signer : option jwk -> string -> res string)
    (transform : json -> st (string * dalg * dkey)) (name : popts -> string) (doc : json) : st dproof :=
  do* mak := transform doc in
  let '(m, a, k) := mak in
  do* sig := sret (signer (key_jwk k) m) in
  do* o := sget in
  do* vm := sret (match o_vm o with Some v => Ok v | None => Panic end) in
  sret (Ok {| p_id := ""; p_type := "DataIntegrityProof"; p_suite := name o; p_purpose := o_purpose o;
              p_vm := dm_id vm; p_created := d_fmt E (o_created o); p_expires := time_field E (o_expires o);
              p_domain := o_domain o; p_challenge := o_challenge o; p_value := d_mbenc E sig; p_prev := "" |}).
(** ecdsa2019.go:371-375, eddsa2022.go:283-287 RequiresCreated: false *)
Definition ecdsa_verifier (E : dienv) : vsuite := {| vs_verify := suite_verify E (ecdsa_transform E); vs_req := false |}.
Definition eddsa_verifier (E : dienv) : vsuite := {| vs_verify := suite_verify E (eddsa_transform E); vs_req := false |}.
Definition ecdsa_signer (E : dienv) (signer : option jwk -> string -> res string) : ssuite :=
  {| ss_create := suite_create E signer (ecdsa_transform E) o_suite; ss_req := false |}.
Definition eddsa_signer (E : dienv) (signer : option jwk -> string -> res string) : ssuite :=
  {| ss_create := suite_create E signer (eddsa_transform E) (fun _ => "eddsa-rdfc-2022"); ss_req := false |}.

(** ecdsa2019.go:135-139, eddsa2022.go:129-133 Type *)
Definition ecdsa_types : list string := ["ecdsa-2019"; "ecdsa-rdfc-2019"].
Definition eddsa_types : list string := ["eddsa-rdfc-2022"; "eddsa-2022"].
(** verifier.go:34-60 NewVerifier and signer.go:48-74 NewSigner: the first suite registered for a name stays.
    [init]: initializer.Verifier() / .Signer(), called for each new name. *)
Fixpoint register_types {S} (types : list string) (init : res S) (m : gomap S) : res (gomap S) :=
  match types with
  | [] => Ok m
  | t :: ts => if mhas m t then register_types ts init m
               else let* s := init in register_types ts init (mset m t s)
  end.
Fixpoint register {S} (inits : list (list string * res S)) (m : gomap S) : res (gomap S) :=
  match inits with
  | [] => Ok m
  | (types, init) :: rest => let* m' := register_types types init m in register rest m'
  end.
Definition new_registry {S} (inits : list (list string * res S)) : res (gomap S) := register inits [].

(** ** Verifier (dataintegrity/verifier.go) *)
Record dverifier := { dv_suites : gomap vsuite; dv_resolver : option (string -> res ddoc) }.
Definition parse_time (E : dienv) (s : string) : res gtime :=
  match d_parse E s with Some t => Ok t | None => Err "ErrMalformedProof" end.

(** verifier.go:112-190 verifyProof; [now]: time.Now() *)
Definition verify_one (E : dienv) (V : dverifier) (now : gtime) (doc pj : json) : st unit :=
  do* p := sret (unmarshal_proof pj) in
  do* _ := sguard (negb (String.eqb (p_type p) "" || String.eqb (p_vm p) "" || String.eqb (p_purpose p) ""))
                  "ErrMalformedProof" in
  do* _ := sguard (String.eqb (p_type p) "DataIntegrityProof") "ErrWrongProofType" in
  do* s := sret (match mget (dv_suites V) (p_suite p) with Some s => Ok s | None => Err "ErrUnsupportedSuite" end) in
  do* _ := sput (fun o => if String.eqb (o_suite o) "" then set_suite o (p_suite p) else o) in
  do* _ := sguard (negb (vs_req s && String.eqb (p_created p) "")) "ErrMalformedProof" in
  do* o := sget in
  do* _ := (if is_zero (o_created o) && negb (String.eqb (p_created p) "") then
              do* t := sret (parse_time E (p_created p)) in sput (fun o => set_created o t)
            else sret (Ok tt)) in
  do* _ := (if negb (String.eqb (p_expires p) "") then
              do* t := sret (parse_time E (p_expires p)) in
              do* _ := sguard (gt_ns now <=? gt_ns t) "ErrOutOfDate" in
              sput (fun o => set_expires o t)
            else sret (Ok tt)) in
  do* _ := sguard (String.eqb (p_purpose p) (o_purpose o)) "ErrMismatchedPurpose" in
  do* _ := resolve_vm (dv_resolver V) (p_vm p) in
  fun o1 =>
    let '(o2, r) := vs_verify s doc p o1 in
    (do* _ := sguard (String.eqb (o_domain o2) "" || String.eqb (o_domain o2) (p_domain p)) "ErrInvalidDomain" in
     do* _ := sguard (String.eqb (o_challenge o2) "" || String.eqb (o_challenge o2) (p_challenge p))
                     "ErrInvalidChallenge" in
     sret r) o2.

(** gjson Result.Array(): null gives no element, an array its elements, anything else itself *)
Definition gjson_array (j : json) : list json :=
  match j with JNull => [] | JArr l => l | _ => [j] end.
Fixpoint verify_all (E : dienv) (V : dverifier) (now : gtime) (doc : json) (ps : list json) : st unit :=
  match ps with
  | [] => sret (Ok tt)
  | p :: ps' => do* _ := verify_one E V now doc p in verify_all E V now doc ps'
  end.
(** verifier.go:91-110 VerifyProof *)
Definition doc_proof (doc : json) : option json := match doc with JObj m => mget m "proof" | _ => None end.
Definition del_proof (doc : json) : json := match doc with JObj m => JObj (mdel m "proof") | _ => doc end.
Definition verify_proof (E : dienv) (V : dverifier) (now : gtime) (doc : json) : st unit :=
  match doc_proof doc with
  | None => sret (Err "ErrMissingProof")
  | Some pj => verify_all E V now (del_proof doc) (gjson_array pj)
  end.

(** ** Signer (dataintegrity/signer.go:90-135 AddProof) *)
Record dsigner := { dg_suites : gomap ssuite; dg_resolver : option (string -> res ddoc) }.
Definition set_proof (doc pj : json) : json :=
  match doc with JObj m => JObj (mset m "proof" pj) | _ => JObj [("proof", pj)] end.
Definition add_proof (S : dsigner) (doc : json) : st json :=
  do* o := sget in
  do* s := sret (match mget (dg_suites S) (o_suite o) with Some s => Ok s | None => Err "ErrUnsupportedSuite" end) in
  do* _ := resolve_vm (dg_resolver S) "" in
  do* p := ss_create s doc in
  do* _ := sguard (negb (String.eqb (p_type p) "" || String.eqb (p_purpose p) "" || String.eqb (p_vm p) ""))
                  "ErrProofGeneration" in
  do* _ := sguard (negb (String.eqb (p_created p) "" && ss_req s)) "ErrProofGeneration" in
  do* o := sget in
  do* _ := sguard (String.eqb (o_domain o) "" || String.eqb (o_domain o) (p_domain p)) "ErrProofGeneration" in
  do* _ := sguard (String.eqb (o_challenge o) "" || String.eqb (o_challenge o) (p_challenge p)) "ErrProofGeneration" in
  sret (Ok (set_proof doc (marshal_proof p))).
