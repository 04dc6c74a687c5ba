(** Vocabulary for BBS+ selective disclosure. *)
From Coq Require Import Permutation.
From Verif Require Import GoBase Base64 JwtSpec DiSpec VcSpec JwtModel SdSpec SdModel SdParse DiModel VcModel VcJwt VcParse VcSign VpModel ResSpec ResModel BbsModel.

(** the entries of a "proof" member: one object, or an array of objects *)
Inductive entries : json -> list (gomap json) -> Prop :=
| En_one m : entries (JObj m) [m]
| En_many ms : entries (JArr (map JObj ms)) ms.
(** the entry's type ends in "BbsBlsSignature2020" *)
Definition names_bbs (p : gomap json) : Prop := exists pre, mget p "type" = Some (JStr (pre ++ "BbsBlsSignature2020")).
(** [l'] consists of the elements of [l] that satisfy [P], in their order *)
Inductive picks {A} (P : A -> Prop) : list A -> list A -> Prop :=
| picks_nil : picks P [] []
| picks_take x l l' : P x -> picks P l l' -> picks P (x :: l) (x :: l')
| picks_skip x l l' : ~ P x -> picks P l l' -> picks P (x :: l) l'.
(** [l'] is [l] with some elements left out *)
Inductive subseq {A} : list A -> list A -> Prop :=
| sub_nil l : subseq [] l
| sub_take x l' l : subseq l' l -> subseq (x :: l') (x :: l)
| sub_skip x l' l : subseq l' l -> subseq l' (x :: l).
(** [o] is the part of [kid] before its first '#' (all of it, if there is none) *)
Definition before_hash (kid o : string) : Prop :=
  ~ In "#"%char (list_ascii_of_string o) /\ (kid = o \/ exists r, kid = o ++ "#" ++ r).
(** the proof with the security context added; and also without its value: what is canonicalised and signed of it *)
Definition with_context (p p' : gomap json) : Prop :=
  forall k, mget p' k = if String.eqb k "@context" then Some (JStr "https://w3id.org/security/v2") else mget p k.
Definition proof_options (p o : gomap json) : Prop :=
  (NoDup (map fst p) -> NoDup (map fst o)) /\ forall k, mget o k = if String.eqb k "@context" then Some (JStr "https://w3id.org/security/v2")
                       else if String.eqb k "proofValue" then None else mget p k.
(** one call of DeriveProof and its result *)
Record call := { ca_msgs : list string; ca_sig : string; ca_nonce : string; ca_key : string; ca_idx : list nat; ca_proof : string }.
Definition asked (c : bbscreator) (x : call) : Prop :=
  bc_derive c (ca_msgs x) (ca_sig x) (ca_nonce x) (ca_key x) (ca_idx x) = Ok (ca_proof x).
(** member or null *)
Definition or_null (o : option json) : json := match o with Some j => j | None => JNull end.
(** [q] is the derived proof of the proof [p], made with the call [x]; [st]: the statements (non-blank lines) of [p] *)
Record made_from (L : bbslib) (c : bbscreator) (nonce : string) (p q : gomap json) (st : list string) (x : call) : Prop := {
  mf_call : asked c x;
  mf_nonce : ca_nonce x = nonce;
  mf_statements : exists o t, proof_options p o /\ bl_canon L o = Ok t /\ split_lines t = st;
  mf_key : exists p' kid owner vm, with_context p p' /\ bl_proof L p' = Ok (Ok kid, ca_sig x) /\ before_hash kid owner
             /\ bc_resolve c kid owner = Ok vm /\ ca_key x = vm_value vm;
  mf_members : q = [("type", JStr "BbsBlsSignatureProof2020"); ("nonce", JStr (std_encode nonce));
                    ("verificationMethod", or_null (mget p "verificationMethod")); ("proofPurpose", or_null (mget p "proofPurpose"));
                    ("created", or_null (mget p "created")); ("proofValue", JStr (std_encode (ca_proof x)))] }.

(** ** Verifying a derived proof *)
(** the scheme: the proof derived from a valid signature, revealing the messages at the positions [idx] (ascending), is
    accepted with just those messages *)
Definition scheme_ok (C : cenv) (vp : string -> list string -> string -> string -> bool) (c : bbscreator) : Prop :=
  forall ms sig nonce key idx s shown,
    bc_derive c ms sig nonce key idx = Ok s -> c_bbs C key ms sig = true ->
    (forall i j, (i < j < List.length idx)%nat -> (nth i idx 0 < nth j idx 0)%nat) ->
    Forall2 (fun i m => nth_error ms i = Some m) idx shown ->
    vp key shown s nonce = true.
(** canonical N-Quads do not depend on member order, and end with a line feed (unless empty) *)
Definition canon_ok (L : bbslib) : Prop :=
  (forall a b, (forall k, mget a k = mget b k) -> NoDup (map fst a) -> NoDup (map fst b) -> bl_canon L a = bl_canon L b)
  /\ forall m t, bl_canon L m = Ok t -> t = "" \/ exists t', t = t' ++ String nl "".
(** the options a verifier rebuilds from a derived proof: all members except nonce and value, with the security context *)
Definition verify_options (q o : gomap json) : Prop :=
  NoDup (map fst o) /\ forall k, mget o k = if String.eqb k "@context" then Some (JStr "https://w3id.org/security/v2")
                       else if String.eqb k "proofValue" || String.eqb k "nonce" then None else mget q k.
(** a plain BBS+ proof: type, creation time, key and purpose, besides the value *)
Definition plain_bbs (p : gomap json) : Prop :=
  NoDup (map fst p) /\ mget p "type" = Some (JStr "BbsBlsSignature2020")
  /\ (forall k, mget p k <> None <-> In k ["type"; "created"; "verificationMethod"; "proofPurpose"; "proofValue"]).
