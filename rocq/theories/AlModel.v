(** Model of which Go objects credentials share: verifiable/credential.go:870-1066, 1328-1433, 1458-1486, 1711-1866, 2362-2435, 2453-2583, 2610-2828;
    credential_ldp.go, data_integrity_proof.go:31-51, linked_data_proof.go:82-97, common.go:149-230, 255-345, credential_sdjwt.go:532-548; util/json/json.go:83-120.
    The code is written once, over a [store]: what a value is, how it is looked at and built, what a map variable is.  [go_store] is Go's memory: maps and
    slices are references to cells that can be written.  [value_store] is a world without sharing: values are JSON documents.
    Not modelled: validation of contents and proofs (VcModel has it), enveloped credentials (always fresh objects), writes through Contents() and Proofs(), what is signed (a token is a text); the capacity of slices inside documents (a slice is its
    elements; did-go's AddProof is taken to build a new list of proofs). *)
From Verif Require Import GoBase.

Inductive shape (V : Type) := SNull | SBool (b : bool) | SNum (q : Q) | SStr (s : string) | SArr (l : list V) | SObj (m : gomap V).
Arguments SNull {V}. Arguments SBool {V}. Arguments SNum {V}. Arguments SStr {V}. Arguments SArr {V}. Arguments SObj {V}.
Record store := {
  mem : Type; val : Type; var : Type;
  look : mem -> val -> shape val; make : mem -> shape val -> mem * val;      (* a type switch; a fresh value *)
  new_var : mem -> gomap val -> mem * var; get_var : mem -> var -> gomap val; set_var : mem -> var -> gomap val -> mem * var;
  put_in : mem -> val -> gomap val -> mem * val }.                           (* writing a map that is inside a document *)

(** ** Go's memory *)
Inductive hval := HNull | HBool (b : bool) | HNum (q : Q) | HStr (s : string) | HArr (l : nat) | HObj (l : nat).
Inductive cell := CArr (vs : list hval) | CObj (ms : gomap hval).
Definition heap := list cell.
Fixpoint upd (h : heap) (l : nat) (c : cell) : heap := match h, l with [], _ => [] | _ :: h', O => c :: h' | x :: h', Datatypes.S n => x :: upd h' n c end.
Definition go_look (h : heap) (v : hval) : shape hval :=
  match v with
  | HNull => SNull | HBool b => SBool b | HNum q => SNum q | HStr s => SStr s
  | HArr l => match nth_error h l with Some (CArr vs) => SArr vs | _ => SNull end
  | HObj l => match nth_error h l with Some (CObj ms) => SObj ms | _ => SNull end
  end.
Definition go_make (h : heap) (x : shape hval) : heap * hval :=
  match x with
  | SNull => (h, HNull) | SBool b => (h, HBool b) | SNum q => (h, HNum q) | SStr s => (h, HStr s)
  | SArr vs => ((h ++ [CArr vs])%list, HArr (List.length h)) | SObj ms => ((h ++ [CObj ms])%list, HObj (List.length h))
  end.
Definition go_store : store :=
  {| mem := heap; val := hval; var := nat; look := go_look; make := go_make;
     new_var := fun h ms => ((h ++ [CObj ms])%list, List.length h);
     get_var := fun h l => match nth_error h l with Some (CObj ms) => ms | _ => [] end;
     set_var := fun h l ms => (upd h l (CObj ms), l);
     put_in := fun h v ms => match v with HObj l => (upd h l (CObj ms), v) | _ => (h, v) end |}.

(** ** No sharing *)
Definition value_look (j : json) : shape json :=
  match j with JNull => SNull | JBool b => SBool b | JNum q => SNum q | JStr s => SStr s | JArr l => SArr l | JObj m => SObj m end.
Definition value_make (x : shape json) : json :=
  match x with SNull => JNull | SBool b => JBool b | SNum q => JNum q | SStr s => JStr s | SArr l => JArr l | SObj m => JObj m end.
Definition value_store : store :=
  {| mem := unit; val := json; var := gomap json; look := fun _ => value_look; make := fun _ x => (tt, value_make x);
     new_var := fun _ ms => (tt, ms); get_var := fun _ ms => ms; set_var := fun _ _ ms => (tt, ms); put_in := fun _ _ ms => (tt, JObj ms) |}.

(** What an API call works on *)
Inductive kind := KText | KTypes | KContext | KIssuer | KSubjects | KTyped | KShare.
(** a field of CredentialContents, the member it is read from and written to *)
Record fspec := { f_name : string; f_member : string; f_kind : kind }.
Definition fld_spec n m k := {| f_name := n; f_member := m; f_kind := k |}.
Definition v2_uri : string := "https://www.w3.org/ns/credentials/v2".
(** 1711-1808, 2453-2526; null dates fall back to the 2.0 names *)
Definition dates (v2 : bool) : list fspec :=
  if v2 then [fld_spec "Issued" "validFrom" KText; fld_spec "Expired" "validUntil" KText] else [fld_spec "Issued" "issuanceDate" KText; fld_spec "Expired" "expirationDate" KText].
Definition table (v2 : bool) : list fspec :=
  ([fld_spec "Context" "@context" KContext; fld_spec "ID" "id" KText; fld_spec "Types" "type" KTypes; fld_spec "Subject" "credentialSubject" KSubjects; fld_spec "Issuer" "issuer" KIssuer;
    fld_spec "Status" "credentialStatus" KTyped; fld_spec "Schemas" "credentialSchema" KTyped; fld_spec "Evidence" "evidence" KShare; fld_spec "TermsOfUse" "termsOfUse" KTyped;
    fld_spec "RefreshService" "refreshService" KTyped; fld_spec "RelatedResources" "relatedResource" KShare] ++ dates v2)%list.

Inductive envelope := NoEnvelope | JwtEnvelope (token : string) (disclosures : list string) | CwtEnvelope (message : string).

Section Code.
  Variable W : store.
  Definition st (A : Type) := mem W -> res (mem W * A).
  Definition ret {A} (a : A) : st A := fun h => Ok (h, a).
  Definition fail {A} (e : string) : st A := fun _ => Err e.
  Definition bnd {A B} (m : st A) (f : A -> st B) : st B := fun h => match m h with Ok (h', a) => f a h' | Err e => Err e | Panic => Panic end.
  Definition mk (x : shape (val W)) : st (val W) := fun h => Ok (make W h x).
  Definition lk (v : val W) : st (shape (val W)) := fun h => Ok (h, look W h v).
  Fixpoint each {A B} (f : A -> st B) (l : list A) : st (list B) :=
    match l with [] => ret [] | x :: l' => bnd (f x) (fun y => bnd (each f l') (fun ys => ret (y :: ys))) end.
  (** a fresh copy of a document in memory: what json.Unmarshal makes, or a caller builds *)
  Fixpoint load (j : json) : st (val W) :=
    match j with
    | JNull => mk SNull | JBool b => mk (SBool b) | JNum q => mk (SNum q) | JStr s => mk (SStr s)
    | JArr l => bnd ((fix go (l : list json) : st (list (val W)) := match l with [] => ret [] | x :: l' => bnd (load x) (fun y => bnd (go l') (fun ys => ret (y :: ys))) end) l) (fun vs => mk (SArr vs))
    | JObj m => bnd ((fix go (m : list (string * json)) : st (gomap (val W)) := match m with [] => ret [] | (k, x) :: m' => bnd (load x) (fun y => bnd (go m') (fun ys => ret ((k, y) :: ys))) end) m) (fun ms => mk (SObj ms))
    end.
  Definition load_members (m : gomap json) : st (gomap (val W)) := bnd (each (fun kx => load (snd kx)) m) (fun vs => ret (combine (map fst m) vs)).

  (** ** Contents from a document *)
  Definition text_of (v : val W) : st string := bnd (lk v) (fun x => match x with SStr s => ret s | _ => fail "not a text" end).
  (** parseStringFld: absent is "" *)
  Definition text_at (ms : gomap (val W)) (k : string) : st string := match mget ms k with Some v => text_of v | None => ret "" end.
  Definition without (keys : list string) (ms : gomap (val W)) : gomap (val W) := filter (fun kv => negb (str_in (fst kv) keys)) ms.
  (** credential.go:788-860, common.go:149-166: SubjectFromJSON, IssuerFromJSON, parseTypedIDObj: the named members, and a new map with the others *)
  Definition split_obj (keys : list string) (v : val W) : st (val W) :=
    bnd (lk v) (fun x => match x with
      | SObj ms => bnd (each (fun k => bnd (text_at ms k) (fun s => bnd (mk (SStr s)) (fun w => ret (k, w)))) keys) (fun flds =>
                   bnd (mk (SObj (without keys ms))) (fun rest => mk (SObj (flds ++ [("CustomFields", rest)])%list)))
      | _ => fail "not an object" end).
  (** a subject or issuer that is only an id *)
  Definition bare (v : val W) : st (val W) := mk (SObj [("id", v)]).
  Definition keys_of (k : kind) : list string := match k with KTyped => ["id"; "type"] | _ => ["id"] end.
  Definition decode (k : kind) (v : val W) : st (val W) :=
    match k with
    | KShare => ret v
    | KText => bnd (text_of v) (fun s => mk (SStr s))
    | KTypes | KContext => bnd (lk v) (fun x => match x with
        | SStr s => mk (SArr [v])
        | SArr vs => bnd (each (fun w => bnd (lk w) (fun y => match k, y with KTypes, SStr _ => ret w | KTypes, _ => fail "types" | _, _ => ret w end)) vs) (fun ws => mk (SArr ws))
        | _ => fail "texts" end)
    | KIssuer => bnd (lk v) (fun x => match x with SStr "" => fail "issuer id" | SStr _ => bare v | _ => split_obj ["id"] v end)
    | KSubjects | KTyped => bnd (lk v) (fun x => match k, x with
        | KSubjects, SStr _ => bnd (bare v) (fun w => mk (SArr [w]))
        | _, SArr vs => bnd (each (split_obj (keys_of k)) vs) (fun ws => mk (SArr ws))
        | _, _ => bnd (split_obj (keys_of k) v) (fun w => mk (SArr [w])) end)
    end.
  (** 1711-1808 parseCredentialContents: null and absent members leave their field empty *)
  Definition contents_of (t : list fspec) (ms : gomap (val W)) : st (gomap (val W)) :=
    bnd (each (fun f => match mget ms (f_member f) with
                        | None => ret []
                        | Some v => bnd (lk v) (fun x => match x with SNull => ret [] | _ => bnd (decode (f_kind f) v) (fun w => ret [(f_name f, w)]) end) end) t)
        (fun ls => ret (List.concat ls)).

  (** ** A document from contents *)
  (** SubjectToJSON, IssuerToJSON, serializeTypedIDObj: a shallow copy of the custom fields with the named members *)
  Definition join_obj (typed : bool) (v : val W) : st (val W) :=
    bnd (lk v) (fun x => match x with
      | SObj flds => bnd (match mget flds "CustomFields" with Some c => lk c | None => ret (SObj []) end) (fun c =>
                     let custom := match c with SObj ms => ms | _ => [] end in
                     bnd (text_at flds "id") (fun i => bnd (text_at flds "type") (fun t =>
                     bnd (mk (SStr i)) (fun iv => bnd (mk (SStr t)) (fun tv =>
                     let ms := if (typed || negb (String.eqb i ""))%bool then mset custom "id" iv else custom in
                     mk (SObj (if typed then mset ms "type" tv else ms)))))))
      | _ => fail "not a structure" end).
  (** serializeIssuer: only the id when there are no custom fields *)
  Definition issuer_out (v : val W) : st (val W) :=
    bnd (lk v) (fun x => match x with
      | SObj flds => bnd (match mget flds "CustomFields" with Some c => lk c | None => ret (SObj []) end) (fun c =>
                     match c with SObj (_ :: _) => join_obj false v | _ => bnd (text_at flds "id") (fun i => mk (SStr i)) end)
      | _ => fail "not a structure" end).
  (** the member for a field; None: the member is left out *)
  Definition encode (k : kind) (v : val W) : st (option (val W)) :=
    match k with
    | KShare => ret (Some v)
    | KText => bnd (text_of v) (fun s => if String.eqb s "" then ret None else bnd (mk (SStr s)) (fun w => ret (Some w)))
    | KIssuer => bnd (issuer_out v) (fun w => ret (Some w))
    | _ => bnd (lk v) (fun x => match x with
        | SArr [] => ret None
        | SArr vs => match k, vs with
            | KContext, _ => bnd (mk (SArr vs)) (fun w => ret (Some w))
            | KTypes, [w] => ret (Some w)
            | KTypes, _ => bnd (mk (SArr vs)) (fun w => ret (Some w))
            | _, [w] => bnd (join_obj (match k with KTyped => true | _ => false end) w) (fun y => ret (Some y))
            | _, _ => bnd (each (join_obj (match k with KTyped => true | _ => false end)) vs) (fun ws => bnd (mk (SArr ws)) (fun y => ret (Some y)))
            end
        | _ => fail "not a list" end)
    end.
  Definition set_member (ms : gomap (val W)) (k : string) (v : option (val W)) : gomap (val W) := match v with Some w => mset ms k w | None => mdel ms k end.
  (** 2453-2526 serializeCredentialContents *)
  Fixpoint document_of (t : list fspec) (cont ms : gomap (val W)) : st (gomap (val W)) :=
    match t with
    | [] => ret ms
    | f :: t' => match mget cont (f_name f) with None => document_of t' cont ms | Some v => bnd (encode (f_kind f) v) (fun o => document_of t' cont (set_member ms (f_member f) o)) end
    end.
  (** IsBaseContext(Context, V2ContextURI) *)
  Definition is_v2 (cont : gomap (val W)) : st bool :=
    match mget cont "Context" with
    | None => ret false
    | Some v => bnd (lk v) (fun x => match x with SArr (w :: _) => bnd (lk w) (fun y => match y with SStr s => ret (String.eqb s v2_uri) | _ => ret false end) | _ => ret false end)
    end.
  (** common.go:317-328 proofsToRaw *)
  Definition proofs_out (ps : list (val W)) : st (val W) := match ps with [] => mk SNull | [p] => ret p | _ => mk (SArr ps) end.
  (** common.go:330-352 parseLDProof *)
  Definition proofs_in (v : val W) : st (list (val W)) :=
    bnd (lk v) (fun x => match x with
      | SNull => ret [] | SObj _ => ret [v]
      | SArr vs => each (fun w => bnd (lk w) (fun y => match y with SObj _ => ret w | _ => fail "proof" end)) vs
      | _ => fail "proof" end).
  Definition add_missing (ms extra : gomap (val W)) : gomap (val W) := fold_left (fun m kv => if mhas m (fst kv) then m else mset m (fst kv) (snd kv)) extra ms.

  (** ** The API *)
  (** 873-882 Credential; CredentialContents is copied as a structure: its fields, not what they refer to.  No function copies the pointer to an envelope. *)
  Record cred := { c_json : var W; c_cont : gomap (val W); c_proofs : list (val W); c_env : envelope }.
  (** credentials by number (a number is a *Credential), and the maps the caller has *)
  Record world := { w_mem : mem W; w_creds : list cred; w_maps : list (var W) }.
  Inductive op :=
  | NewMap (m : gomap json)                                                        (* the caller builds an object *)
  | Create (contents custom : gomap json) (proofs : list json)                     (* CreateCredential, CreateCredentialWithProofs *)
  | Parse (r : nat)                                                                (* ParseCredentialJSON of map r *)
  | Modify (i : nat) (f : fspec) (arg : json)                                      (* the WithModified... functions *)
  | SetField (i : nat) (k : string) (v : json)                                     (* SetCustomField *)
  | ResetProofs (i : nat) (ps : list json)
  | AddLDProof (i : nat) (p : json) | AddDIProof (i : nat) (ps : list json)
  | SignJWT (i : nat) (token : string) | SignCOSE (i : nat) (message : string)     (* CreateSignedJWTVC, CreateUnsecuredJWTVC; CreateSignedCOSEVC *)
  | SetDisclosures (i : nat) (ds : list string)
  | ToRaw (i : nat)                                                                (* ToRawJSON *)
  | Put (r : nat) (k : string) (v : json) | Drop (r : nat) (k : string)            (* the caller writes map r *)
  | PutIn (r : nat) (k k' : string) (v : json)                                     (* the caller writes a map inside map r *)
  | DisplayMap (i : nat).                                                          (* CreateDisplayCredentialMap, of a credential that is no SD-JWT *)

  Definition set_at {A} (l : list A) (i : nat) (a : A) : list A := (firstn i l ++ match skipn i l with [] => [] | _ :: r => a :: r end)%list.
  Definition new_cred (ms cont : gomap (val W)) (ps : list (val W)) (e : envelope) : st cred :=
    fun h => let (h1, o) := new_var W h ms in Ok (h1, {| c_json := o; c_cont := cont; c_proofs := ps; c_env := e |}).
  Definition cred_json (c : cred) : st (gomap (val W)) := fun h => Ok (h, get_var W h (c_json c)).
  (** 933-942 ToRawJSON *)
  Definition to_raw (c : cred) : st (gomap (val W)) :=
    bnd (cred_json c) (fun ms => match c_proofs c with [] => ret ms | ps => bnd (proofs_out ps) (fun v => ret (mset ms "proof" v)) end).
  (** writing a member of a credential's own map *)
  Definition write_json (c : cred) (k : string) (v : val W) (ps : list (val W)) : st cred :=
    fun h => let (h1, o) := set_var W h (c_json c) (mset (get_var W h (c_json c)) k v) in Ok (h1, {| c_json := o; c_cont := c_cont c; c_proofs := ps; c_env := c_env c |}).
  (** 1403-1433 *)
  Definition create (contents custom : gomap json) (proofs : list json) : st cred :=
    bnd (load_members contents) (fun cont => bnd (is_v2 cont) (fun v2 => bnd (document_of (table v2) cont []) (fun ms =>
    bnd (each load proofs) (fun ps => bnd (proofs_out ps) (fun p => bnd (load_members custom) (fun cs =>
    new_cred (add_missing (match ps with [] => ms | _ => mset ms "proof" p end) cs) cont ps NoEnvelope)))))).
  (** 1436-1486: the caller's map becomes the credential's *)
  Definition parse (o : var W) : st cred :=
    bnd (fun h => Ok (h, get_var W h o)) (fun ms => bnd (match mget ms "proof" with Some v => proofs_in v | None => ret [] end) (fun ps =>
    bnd (contents_of (table false ++ dates true) ms) (fun cont => ret {| c_json := o; c_cont := cont; c_proofs := ps; c_env := NoEnvelope |}))).
  (** 2634-2816, 2823-2828 *)
  Definition modify (c : cred) (f : fspec) (arg : json) : st cred :=
    bnd (load arg) (fun v => bnd (encode (f_kind f) v) (fun o => bnd (cred_json c) (fun ms =>
    new_cred (set_member (mdel ms "proof") (f_member f) o) (mset (c_cont c) (f_name f) v) [] NoEnvelope))).
  (** linked_data_proof.go:82-97 with credential_ldp.go:13-22 *)
  Definition add_ld (c : cred) (p : json) : st cred :=
    bnd (load p) (fun pv => bnd (cred_json c) (fun ms => bnd (match mget ms "proof" with Some v => proofs_in v | None => ret [] end) (fun old =>
    bnd (mk (SArr (old ++ [pv])%list)) (fun v => write_json c "proof" v (old ++ [pv])%list)))).
  (** data_integrity_proof.go:31-51: the proofs are decoded from the signed document *)
  Definition add_di (c : cred) (ps : list json) : st cred :=
    bnd (each load ps) (fun vs => match vs with [] => ret {| c_json := c_json c; c_cont := c_cont c; c_proofs := []; c_env := c_env c |}
                                  | _ => bnd (proofs_out vs) (fun v => write_json c "proof" v vs) end).
  (** credential_ldp.go:25-28 *)
  Definition reset (c : cred) (ps : list json) : st cred := bnd (each load ps) (fun vs => bnd (proofs_out vs) (fun v => write_json c "proof" v vs)).

  Definition push_cred (w : world) (r : res (mem W * cred)) : world :=
    match r with Ok (h, c) => {| w_mem := h; w_creds := w_creds w ++ [c]; w_maps := w_maps w |} | _ => w end.
  Definition put_cred (w : world) (i : nat) (r : res (mem W * cred)) : world :=
    match r with Ok (h, c) => {| w_mem := h; w_creds := set_at (w_creds w) i c; w_maps := w_maps w |} | _ => w end.
  Definition push_map (w : world) (r : res (mem W * var W)) : world :=
    match r with Ok (h, o) => {| w_mem := h; w_creds := w_creds w; w_maps := w_maps w ++ [o] |} | _ => w end.
  Definition put_map (w : world) (i : nat) (r : res (mem W * var W)) : world :=
    match r with Ok (h, o) => {| w_mem := h; w_creds := w_creds w; w_maps := set_at (w_maps w) i o |} | _ => w end.
  Definition fresh_map (ms : gomap (val W)) : st (var W) := fun h => Ok (new_var W h ms).
  Definition rewrite_map (o : var W) (f : gomap (val W) -> gomap (val W)) : st (var W) := fun h => Ok (set_var W h o (f (get_var W h o))).
  Definition on_cred (w : world) (i : nat) (k : cred -> world) : world := match nth_error (w_creds w) i with Some c => k c | None => w end.
  Definition on_map (w : world) (r : nat) (k : var W -> world) : world := match nth_error (w_maps w) r with Some o => k o | None => w end.

  (** one call; a call that fails leaves the world as it is *)
  Definition step (w : world) (x : op) : world :=
    let h := w_mem w in
    match x with
    | NewMap m => push_map w (bnd (load_members m) fresh_map h)
    | Create contents custom proofs => push_cred w (create contents custom proofs h)
    | Parse r => on_map w r (fun o => push_cred w (parse o h))
    | Modify i f arg => on_cred w i (fun c => push_cred w (modify c f arg h))
    | SetField i k v => on_cred w i (fun c => put_cred w i (bnd (load v) (fun u => write_json c k u (c_proofs c)) h))
    | ResetProofs i ps => on_cred w i (fun c => put_cred w i (reset c ps h))
    | AddLDProof i p => on_cred w i (fun c => put_cred w i (add_ld c p h))
    | AddDIProof i ps => on_cred w i (fun c => put_cred w i (add_di c ps h))
    | SignJWT i tok => on_cred w i (fun c => push_cred w (bnd (to_raw c) (fun ms => new_cred ms (c_cont c) (c_proofs c) (JwtEnvelope tok [])) h))
    | SignCOSE i msg => on_cred w i (fun c => push_cred w (bnd (cred_json c) (fun ms => new_cred ms (c_cont c) (c_proofs c) (CwtEnvelope msg)) h))
    | SetDisclosures i ds => on_cred w i (fun c => match c_env c with
        | JwtEnvelope tok _ => put_cred w i (Ok (h, {| c_json := c_json c; c_cont := c_cont c; c_proofs := c_proofs c; c_env := JwtEnvelope tok ds |})) | _ => w end)
    | ToRaw i => on_cred w i (fun c => push_map w (bnd (to_raw c) fresh_map h))
    | Put r k v => on_map w r (fun o => put_map w r (bnd (load v) (fun u => rewrite_map o (fun ms => mset ms k u)) h))
    | Drop r k => on_map w r (fun o => put_map w r (rewrite_map o (fun ms => mdel ms k) h))
    | PutIn r k k' v => on_map w r (fun o => put_map w r (bnd (load v) (fun u => bnd (fun h => Ok (h, get_var W h o)) (fun ms =>
        match mget ms k with
        | Some inner => bnd (lk inner) (fun x => match x with
            | SObj im => bnd (fun h => Ok (put_in W h inner (mset im k' u))) (fun inner' => rewrite_map o (fun ms => mset ms k inner')) | _ => fail "no map" end)
        | None => fail "no map" end)) h))
    | DisplayMap i => on_cred w i (fun c => push_map w (Ok (h, c_json c)))
    end.
  Definition run (w : world) (l : list op) : world := fold_left step l w.
End Code.
Arguments c_json {W}. Arguments c_cont {W}. Arguments c_proofs {W}. Arguments c_env {W}. Arguments w_mem {W}. Arguments w_creds {W}. Arguments w_maps {W}.
Arguments Build_cred {W}. Arguments Build_world {W}. Arguments set_at {A}.
Definition go_start : world go_store := Build_world (W := go_store) [] [] [].
Definition value_start : world value_store := Build_world (W := value_store) tt [] [].
