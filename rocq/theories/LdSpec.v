(** Vocabulary for linked-data proofs: registrations of a proof creator, and what did-go's proof package is assumed to do. *)
From Coq Require Import Permutation.
From Verif Require Import GoBase Base64 JwtSpec DiSpec VcSpec JwtModel SdSpec SdModel SdParse DiModel VcModel VcJwt VcParse VcSign VpModel VcAdd LdModel.

(** ** Registrations *)
(** [o] is the first of [opts] that satisfies [P] *)
Definition first_of {A} (P : A -> Prop) (opts : list A) (o : A) : Prop :=
  exists pre post, opts = (pre ++ o :: post)%list /\ P o /\ Forall (fun x => ~ P x) pre.
(** the registration is for the linked-data proof type [t]; for the JWT algorithm [a]; for the COSE algorithm [z]; for a JWT
    algorithm whose keys include those of type [k] *)
Definition for_type (t : string) (o : copt) : Prop := exists d s, o = WithLDProofType d s /\ ld_type (le_desc d) = t.
Definition for_alg (a : string) (o : copt) : Prop := exists d s, o = WithJWTAlg d s /\ jd_alg d = a.
Definition for_cose (z : Z) (o : copt) : Prop := exists d s, o = WithJWTAlg d s /\ jd_cose d = z.
Definition takes (k : keytype) (l : list svm) : Prop := exists s, In s l /\ k = Some (sm_kms s).
Definition for_key (k : keytype) (o : copt) : Prop := exists d s, o = WithJWTAlg d s /\ takes k (jd_vms d).

(** ** did-go's proof package *)
(** the proof entries of a document: none, one, or those of an array *)
Definition earlier (m : gomap json) : list json :=
  match mget m "proof" with None => [] | Some (JArr l) => l | Some j => [j] end.
(** objects that differ at most in the member "proof" and in the order of their members *)
Definition same_but_proof (m m' : gomap json) : Prop :=
  NoDup (map fst m) /\ NoDup (map fst m') /\ forall k, k <> "proof" -> mget m k = mget m' k.
Definition same_suite (a b : suite) : Prop := (forall m, su_canon a m = su_canon b m) /\ forall s, su_digest a s = su_digest b s.
(** [ser]: Proof.JSONLdObject.  AddProof appends the proof's object to the entries of the document; verify data is made
    with the suite's two functions from the proof and the document without its proofs; the type is written under "type". *)
Record ld_lib (L : ldlib) (ser : gproof -> gomap json) : Prop := {
  la_add : forall m p, mget m "proof" <> Some JNull -> ll_add L m p = (mset m "proof" (JArr (earlier m ++ [JObj (ser p)])), Ok tt);
  la_blind : forall s m m' p, same_but_proof m m' -> ll_vdata L s m p = ll_vdata L s m' p;
  la_ext : forall s s' m p, same_suite s s' -> ll_vdata L s m p = ll_vdata L s' m p;
  la_type : forall p, mget (ser p) "type" = Some (JStr (gp_type p)) }.
(** a proof ready to be signed: no signature yet, a detached JWS header where one belongs *)
Definition unsigned (L : ldlib) (p : gproof) : Prop :=
  match gp_rep p with
  | RepValue => gp_value p = "" /\ gp_jws p = ""
  | RepJWS => gp_value p = "" /\ exists a, gp_jws p = (ll_header L a ++ "..")%string
  | RepOther => False
  end.
(** What the verifying side of the package reads back ([rd]: NewProof and the accessors; [suites]: the checker's suite of a
    proof type): GetProofs reads each entry; a written proof is read with its type, key id and signature, and its verify
    data is that of the proof before it was signed. *)
Record ld_reader (L : ldlib) (ser : gproof -> gomap json) (E : venv) (suites : string -> suite) (rd : gomap json -> res ldproof) : Prop := {
  lr_get : forall m j ps, fld m "proof" = Some j -> get_proofs j = Ok ps -> ve_ldproofs E m = map_res rd ps;
  lr_read : forall p s, unsigned L p -> gp_vm p <> "" -> s <> "" ->
    exists q, rd (ser (apply_signature p s)) = Ok q /\ lp_type q = gp_type p /\ lp_pkid q = Ok (gp_vm p) /\ lp_sig q = Ok s
      /\ forall m, ve_ldmsg E q m = ll_vdata L (suites (gp_type p)) m p;
  lr_blind : forall q m m', same_but_proof m m' -> ve_ldmsg E q m = ve_ldmsg E q m' }.

(** ** A fitting pair of creator and checker *)
(** the creator's suite for the type is the checker's, and the checker accepts, for the issuer and key id, what the creator
    signs with a key of this type (signatures are not empty) *)
Definition ld_fits (suites : string -> suite) (C : ldcreator) (chk : ld_checker) (t : string) (k : keytype) (kid iss : string) : Prop :=
  (forall p, gp_type p = t -> same_suite (wrap_suite C p) (suites t))
  /\ (forall p q msg sig, gp_type p = t -> lc_sign C p k msg = Ok sig -> sig <> ""
        /\ (lp_type q = t -> lp_pkid q = Ok kid -> chk q iss msg sig = Ok tt)).
