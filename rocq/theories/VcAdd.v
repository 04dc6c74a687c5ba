(** Model of verifiable/data_integrity_proof.go (AddDataIntegrityProof of credentials and presentations) and
    verifiable/credential_ldp.go ResetProofs. (AddLinkedDataProof: LdModel.v.) *)
From Verif Require Import GoBase JwtSpec DiSpec JwtModel DiModel VcSpec VcModel VcJwt VcParse VcSign VpModel.

(** data_integrity_proof.go:20-28 DataIntegrityProofContext *)
Record dictx := {
  dx_key : string; dx_purpose : string; dx_suite : string; dx_created : option gtime; dx_expires : option gtime;
  dx_domain : string; dx_challenge : string }.
(** data_integrity_proof.go:78-101: the options handed to the signer; [now]: time.Now().  (The default purpose is also
    written back into the caller's context, which is not modelled.) *)
Definition sign_opts (now : gtime) (c : dictx) : popts :=
  {| o_purpose := if String.eqb (dx_purpose c) "" then "assertionMethod" else dx_purpose c; o_vmid := dx_key c; o_vm := None;
     o_ptype := "DataIntegrityProof"; o_suite := dx_suite c; o_domain := dx_domain c; o_challenge := dx_challenge c;
     o_created := match dx_created c with Some t => t | None => now end;
     o_expires := match dx_expires c with Some t => t | None => zero_time end |}.
(** linked_data_proof.go:78-80 rawProof, decoded by encoding/json: members called "proof" in any case; objects are merged
    into one map, null makes it nil *)
Definition raw_proof_step (p : option (gomap json)) (j : json) : res (option (gomap json)) :=
  match j with
  | JObj m => Ok (Some (fold_left (fun acc kv => mset acc (fst kv) (snd kv)) m (of_nil p)))
  | JNull => Ok None
  | _ => Err "json: cannot unmarshal into Go struct field rawProof.proof"
  end.
(** data_integrity_proof.go:73-120 addDataIntegrityProof on the JSON text of [doc] *)
Definition add_di (S : dsigner) (now : gtime) (c : dictx) (doc : json) : res (list (gomap json)) :=
  let* out := snd (add_proof S doc (sign_opts now c)) in
  let* p := fold_res raw_proof_step (occurrences "proof" (match out with JObj m => m | _ => [] end)) None in
  Ok [of_nil p].
(** credential_ldp.go:25-28 ResetProofs *)
Definition reset_proofs (v : credential) (ps : list (gomap json)) : credential :=
  {| cr_json := mset (cr_json v) "proof" (proofs_to_raw ps); cr_contents := cr_contents v; cr_proofs := ps;
     cr_jwt := cr_jwt v; cr_cwt := cr_cwt v |}.
(** data_integrity_proof.go:31-50 Credential.AddDataIntegrityProof; [D], [sd]: see ToUniversalForm *)
Definition add_di_cred (D : senv) (sd : credential -> res string) (S : dsigner) (now : gtime) (c : dictx) (v : credential)
  : res credential :=
  let* doc := to_universal D sd v in
  let* ps := add_di S now c doc in
  Ok (match ps with
      | [] => {| cr_json := cr_json v; cr_contents := cr_contents v; cr_proofs := ps; cr_jwt := cr_jwt v; cr_cwt := cr_cwt v |}
      | _ => reset_proofs v ps
      end).
(** presentation.go:392-436 MarshalJSON as a JSON value ([marshal_vp] is its text) *)
Definition vp_form (D : senv) (U : credential -> res json) (p : presentation) : res json :=
  let v2 := is_base_context (pr_context p) v2_context in
  if v2 && is_jwt_vp p then Ok (JObj (vp_envelope vp_media_jwt (pr_jwt p))) else
  match (if v2 then cwt_of p else None) with
  | Some w => Ok (JObj (vp_envelope vp_media_cose (se_hex D (vw_raw w))))
  | None => if is_jwt_vp p then Ok (JStr (pr_jwt p)) else rmap JObj (pres_raw U p)
  end.
(** data_integrity_proof.go:53-67 Presentation.AddDataIntegrityProof *)
Definition with_proofs (p : presentation) (ps : list (gomap json)) : presentation :=
  {| pr_context := pr_context p; pr_custom_ctx := pr_custom_ctx p; pr_id := pr_id p; pr_types := pr_types p; pr_creds := pr_creds p;
     pr_holder := pr_holder p; pr_proofs := ps; pr_jwt := pr_jwt p; pr_cwt := pr_cwt p; pr_custom := pr_custom p |}.
Definition add_di_pres (D : senv) (U : credential -> res json) (S : dsigner) (now : gtime) (c : dictx) (p : presentation)
  : res presentation :=
  let* doc := vp_form D U p in
  let* ps := add_di S now c doc in
  Ok (with_proofs p ps).
