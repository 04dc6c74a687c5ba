(** Model of sdjwt/issuer: New, NewFromVC and the two builders.  Signing is not modelled: the result is the
    payload that gets signed, and the disclosures. *)
From Coq Require DecimalString.
From Verif Require Import GoBase Base64 JwtSpec JwtModel SdSpec SdModel.

(** issuer.go:80-105 newOpts.  HashAlg: one of the three supported functions; numeric dates as integers;
    the holder key as its JSON. *)
Record iopts := {
  io_sub : string; io_aud : string; io_jti : string; io_id : string;
  io_exp : option Z; io_nbf : option Z; io_iat : option Z;
  io_holder : option json; io_hash : hashalg;
  io_decoys : bool; io_structured : bool;
  io_nonsd : list string; io_always : list string; io_rec : list string
}.
(** Oracles: getSalt (by call number; None: error), the random shuffle, the random number of decoys,
    json.Marshal. *)
Record ienv := {
  ie_salt : nat -> option string; ie_shuffle : nat -> list string -> list string; ie_decoys : nat -> nat;
  ie_enc : json -> option string
}.

(** opts.getSalt *)
Definition new_salt (I : ienv) (st : nat) : res (string * nat) :=
  match ie_salt I st with Some s => Ok (s, S st) | None => Err "generate salt" end.
(** v2.go:115-135, v5.go:293-334 createDisclosure: the disclosure string.  v5 leaves out an empty name. *)
Definition create_disclosure (I : ienv) (v5 : bool) (key : string) (value : json) (st : nat) : res (string * nat) :=
  let* s := new_salt I st in
  let arr := if v5 && String.eqb key "" then [JStr (fst s); value] else [JStr (fst s); JStr key; value] in
  match ie_enc I (JArr arr) with
  | Some b => Ok (b64_encode b, snd s)
  | None => Err "marshal disclosure"
  end.
(** issuer.go:525-547 createDecoyDisclosures: between 1 and 4 salts *)
Fixpoint decoy_loop (I : ienv) (n : nat) (st : nat) : res (list string * nat) :=
  match n with
  | O => Ok ([], st)
  | S n' => let* s := new_salt I st in let* r := decoy_loop I n' (snd s) in Ok (fst s :: fst r, snd r)
  end.
Definition create_decoys (I : ienv) (o : iopts) (st : nat) : res (list string * nat) :=
  if io_decoys o then decoy_loop I (ie_decoys I st mod 4 + 1) (S st) else Ok ([], st).
(** issuer.go:495-523 createDigests, createDigest *)
Definition create_digests (E : sdenv) (I : ienv) (o : iopts) (ds : list string) (st : nat) : list string * nat :=
  (ie_shuffle I st (map (get_hash E (io_hash o)) ds), S st).

Definition cur_path (path key : string) : string := if String.eqb path "" then key else path ++ "." ++ key.

(** A []string as JSON: a nil slice is null *)
Definition str_slice (l : list string) : json := match l with [] => JNull | _ => JArr (map JStr l) end.

Definition built : Type := list string * gomap json * nat.

(** ** v2.go:56-113 SDJWTBuilderV2.CreateDisclosuresAndDigests *)
Section V2.
  Variables (I : ienv) (o : iopts).
  Variable rec : string -> json -> nat -> res built.
  (** the loop over the claims: disclosures, levelDisclosures, digestsMap *)
  Fixpoint v2_loop (path : string) (claims : list (string * json)) (ds lv : list string) (dm : gomap json) (st : nat)
    : res (list string * list string * gomap json * nat) :=
    match claims with
    | [] => Ok (ds, lv, dm, st)
    | (key, value) :: rest =>
        let cp := cur_path path key in
        if match value with JObj _ => true | _ => false end && io_structured o then
          let* r := rec cp value st in
          let '(nds, ndm, st1) := r in
          v2_loop path rest (ds ++ nds)%list lv (mset dm key (JObj ndm)) st1
        else if str_in cp (io_nonsd o) then v2_loop path rest ds lv (mset dm key value) st
        else
          let* d := create_disclosure I false key value st in
          v2_loop path rest ds (lv ++ [fst d])%list dm (snd d)
    end.
End V2.
Fixpoint v2_create (E : sdenv) (I : ienv) (o : iopts) (path : string) (j : json) (st : nat) {struct j} : res built :=
  match j with
  | JObj claims =>
      let* dec := create_decoys I o st in
      let* r := v2_loop I o (v2_create E I o) path claims [] [] [] (snd dec) in
      let '(ds, lv, dm, st1) := r in
      let g := create_digests E I o (lv ++ fst dec)%list st1 in
      Ok ((ds ++ lv)%list, mset dm "_sd" (str_slice (fst g)), snd g)
  | _ => Err "not an object"
  end.

(** ** v5.go:83-291 SDJWTBuilderV5 *)

(** fmt's %v of a non-negative int *)
Definition fmt_nat (n : nat) : string := DecimalString.NilZero.string_of_uint (Nat.to_uint n).
(** v5.go:253-291 processArrayElements *)
Fixpoint v5_elems (E : sdenv) (I : ienv) (o : iopts) (path : string) (i : nat) (l : list json) (st : nat)
  : res (list json * list string * nat) :=
  match l with
  | [] => Ok ([], [], st)
  | v :: l' =>
      let ep := path ++ "[" ++ fmt_nat i ++ "]" in
      if str_in ep (io_nonsd o) then
        let* r := v5_elems E I o path (S i) l' st in
        let '(vs, ds, st1) := r in Ok (v :: vs, ds, st1)
      else
        let* d := create_disclosure I true "" v st in
        let* r := v5_elems E I o path (S i) l' (snd d) in
        let '(vs, ds, st1) := r in
        Ok (JObj [("...", JStr (get_hash E (io_hash o) (fst d)))] :: vs, fst d :: ds, st1)
  end.
Section V5.
  Variables (E : sdenv) (I : ienv) (o : iopts).
  Variable rec : string -> json -> bool -> nat -> res built.
  (** v5.go:107-239 the loop: finalSDDigest, allDisclosures, digestsMap *)
  Fixpoint v5_loop (path : string) (ign : bool) (claims : list (string * json)) (fin all : list string) (dm : gomap json) (st : nat)
    : res (list string * list string * gomap json * nat) :=
    match claims with
    | [] => Ok (fin, all, dm, st)
    | (key, value) :: rest =>
        let cp := cur_path path key in
        let ignored := str_in cp (io_nonsd o) in
        let always := str_in cp (io_always o) in
        match value with
        | JNull => Panic                                    (* reflect.TypeOf(nil).Kind() *)
        | JObj _ =>
            if ignored then v5_loop path ign rest fin all (mset dm key value) st
            else if str_in cp (io_rec o) then
              let* r := rec cp value false st in
              let '(nds, ndm, st1) := r in
              let* d := create_disclosure I true key (JObj ndm) st1 in
              if always then v5_loop path ign rest fin (all ++ nds)%list (mset dm key (JObj ndm)) (snd d)
              else v5_loop path ign rest (fin ++ [fst d])%list (all ++ nds)%list dm (snd d)
            else if always || io_structured o then
              let* r := rec cp value false st in
              let '(nds, ndm, st1) := r in
              v5_loop path ign rest fin (all ++ nds)%list (mset dm key (JObj ndm)) st1
            else
              let* r := rec cp value true st in
              let '(nds, ndm, st1) := r in
              let* d := create_disclosure I true key (JObj ndm) st1 in
              v5_loop path ign rest (fin ++ [fst d])%list (all ++ nds)%list dm (snd d)
        | JArr l =>
            if ignored then v5_loop path ign rest fin all (mset dm key value) st
            else
              let* r := v5_elems E I o cp 0 l st in
              let '(vs, eds, st1) := r in
              let arr := match vs with [] => JNull | _ => JArr vs end in   (* a nil slice is null *)
              if always || io_structured o then v5_loop path ign rest fin (all ++ eds)%list (mset dm key arr) st1
              else
                let* d := create_disclosure I true key arr st1 in
                v5_loop path ign rest (fin ++ [fst d])%list (all ++ eds)%list dm (snd d)
        | _ =>
            if ignored || ign then v5_loop path ign rest fin all (mset dm key value) st
            else
              let* d := create_disclosure I true key value st in
              v5_loop path ign rest (fin ++ [fst d])%list all dm (snd d)
        end
    end.
End V5.
(** v5.go:92-251 createDisclosuresAndDigestsInternal *)
Fixpoint v5_create (E : sdenv) (I : ienv) (o : iopts) (path : string) (j : json) (ign : bool) (st : nat) {struct j} : res built :=
  match j with
  | JObj claims =>
      let* dec := create_decoys I o st in
      let* r := v5_loop E I o (v5_create E I o) path ign claims (fst dec) [] [] (snd dec) in
      let '(fin, all, dm, st1) := r in
      let g := create_digests E I o fin st1 in
      Ok ((fin ++ all)%list, match fst g with [] => dm | _ => mset dm "_sd" (str_slice (fst g)) end, snd g)
  | _ => Err "not an object"
  end.

(** ** issuer.go *)

(** common.go:428-444 KeyExistsInMap *)
Fixpoint key_exists (key : string) (j : json) : bool :=
  match j with
  | JObj m => existsb (fun kv => String.eqb (fst kv) key || key_exists key (snd kv)) m
  | _ => false
  end.

(** issuer.go:472-493 createPayload and 597-613 payload, as the JSON map MergeCustomFields makes of it *)
Definition f_str (k s : string) : gomap json := if String.eqb s "" then [] else [(k, JStr s)].
Definition f_date (k : string) (d : option Z) : gomap json := match d with Some z => [(k, jnum z)] | None => [] end.
Definition hash_name (h : hashalg) : string :=
  match h with SHA256 => "sha-256" | SHA384 => "sha-384" | SHA512 => "sha-512" end.
Definition create_payload (iss : string) (o : iopts) : gomap json :=
  (f_str "iss" iss ++ f_str "sub" (io_sub o) ++ f_str "aud" (io_aud o) ++ f_str "jti" (io_jti o) ++
   f_date "exp" (io_exp o) ++ f_date "nbf" (io_nbf o) ++ f_date "iat" (io_iat o) ++ f_str "id" (io_id o) ++
   (match io_holder o with Some k => [("cnf", JObj [("jwk", k)])] | None => [] end) ++
   [("_sd_alg", JStr (hash_name (io_hash o)))])%list.
(** util/json/json.go:66-80 MergeCustomFields (the first argument already as a map) *)
Fixpoint merge_custom (kf cf : gomap json) : gomap json :=
  match cf with
  | [] => kf
  | (k, v) :: cf' => merge_custom (if mhas kf k then kf else mset kf k v) cf'
  end.
(** issuer.go:352-402 New *)
Definition new_sdjwt (E : sdenv) (I : ienv) (v5 : bool) (o : iopts) (iss : string) (claims : gomap json)
  : res (gomap json * list string) :=
  let* _ := guard (negb (key_exists "_sd" (JObj claims))) "key _sd cannot be present in the claims" in
  let* b := if v5 then v5_create E I o "" (JObj claims) false 0 else v2_create E I o "" (JObj claims) 0 in
  Ok (merge_custom (create_payload iss o) (snd (fst b)), fst (fst b)).

(** issuer.go:415-470 NewFromVC: the credential that gets signed, and the disclosures *)
Definition new_from_vc (E : sdenv) (I : ienv) (v5 : bool) (o : iopts) (vc : gomap json)
  : res (gomap json * list string) :=
  match get_key_from_vc "credentialSubject" vc with
  | None => Err "credential subject not found"
  | Some (JObj cs) =>
      let* r := new_sdjwt E I v5 o "" cs in
      let scs := fst r in
      (* v2.go:138-145, v5.go:348-357 ExtractCredentialClaims; [put] writes the claims back (they are shared) *)
      let* ex := match mget vc "vc" with
                 | Some (JObj vcc) => Ok (vcc, fun c => mset vc "vc" (JObj c))
                 | _ => if v5 then Ok (vc, fun c => c) else Err "invalid vc claim"
                 end in
      let (vcc, put) := ex in
      let vcc := mset vcc "_sd_alg" (match mget scs "_sd_alg" with Some a => a | None => JNull end) in
      let scs := mdel scs "_sd_alg" in
      let vcc := match mget scs "cnf" with Some c => mset vcc "cnf" c | None => vcc end in
      let scs := mdel scs "cnf" in
      Ok (put (mset vcc "credentialSubject" (JObj scs)), snd r)
  | Some _ => Err "credential subject must be an object"
  end.
