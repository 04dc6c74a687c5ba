(** Specification for sharing: the document a Go value stands for, the credential that a *Credential shows, and callers that do not write where the library reads. *)
From Verif Require Import GoBase AlModel.

(** the JSON document that a value in Go's memory stands for *)
Inductive reads (h : heap) : hval -> json -> Prop :=
| rd_null : reads h HNull JNull
| rd_bool b : reads h (HBool b) (JBool b)
| rd_num q : reads h (HNum q) (JNum q)
| rd_str s : reads h (HStr s) (JStr s)
| rd_arr l vs js : nth_error h l = Some (CArr vs) -> Forall2 (reads h) vs js -> reads h (HArr l) (JArr js)
| rd_obj l ms js : nth_error h l = Some (CObj ms) -> Forall2 (fun a b => fst a = fst b /\ reads h (snd a) (snd b)) ms js -> reads h (HObj l) (JObj js).
Definition reads_map (h : heap) (l : nat) (m : gomap json) : Prop := reads h (HObj l) (JObj m).
(** credential [c] in Go's memory has the document, contents, proofs and envelope of [d] *)
Definition shows (h : heap) (c : cred go_store) (d : cred value_store) : Prop :=
  reads_map h (c_json c) (c_json d) /\ Forall2 (fun a b => fst a = fst b /\ reads h (snd a) (snd b)) (c_cont c) (c_cont d) /\ Forall2 (reads h) (c_proofs c) (c_proofs d) /\ c_env c = c_env d.

(** A careful caller writes only at the top of its own maps: a map given to ParseCredentialJSON is not used again ([gone]), maps inside documents are not written, and
    CreateDisplayCredentialMap is not used. *)
Fixpoint careful (gone : list nat) (l : list op) : Prop :=
  match l with
  | [] => True
  | Parse r :: l' => ~ In r gone /\ careful (r :: gone) l'
  | (Put r _ _ | Drop r _) :: l' => ~ In r gone /\ careful gone l'
  | (PutIn _ _ _ _ | DisplayMap _) :: _ => False
  | _ :: l' => careful gone l'
  end.
(** the maps given away in a history *)
Fixpoint given (l : list op) : list nat := match l with [] => [] | Parse r :: l' => r :: given l' | _ :: l' => given l' end.
(** the calls that are made on credential [i] to change it *)
Definition changes (i : nat) (x : op) : bool :=
  match x with SetField j _ _ | ResetProofs j _ | AddLDProof j _ | AddDIProof j _ | SetDisclosures j _ => Nat.eqb i j | _ => false end.
(** the writes to map [r] *)
Definition writes (r : nat) (x : op) : bool := match x with Put s _ _ | Drop s _ => Nat.eqb r s | _ => false end.

(** Go's memory after a history, and the same history among values *)
Definition go_run (l : list op) : world go_store := run go_store go_start l.
Definition value_run (l : list op) : world value_store := run value_store value_start l.
(** Whatever credential [i] shows after the calls [l], it still shows after the calls [l2]. *)
Definition kept (l l2 : list op) (i : nat) : Prop :=
  forall c d, nth_error (w_creds (go_run l)) i = Some c -> shows (w_mem (go_run l)) c d ->
  exists c', nth_error (w_creds (go_run (l ++ l2)%list)) i = Some c' /\ shows (w_mem (go_run (l ++ l2)%list)) c' d.
