(** Model of verifiable/credential_sdjwt.go: MarshalWithDisclosure, MakeSDJWT, CreateDisplayCredential(Map). *)
From Verif Require Import GoBase Base64 JwtSpec DiSpec VcSpec JwtModel SdSpec SdModel SdParse SdIssueModel DiModel VcModel VcJwt VcParse.

(** credential_sdjwt.go:22-31 marshalDisclosureOpts.  [md_binding]: a holder binding is requested, and the result of
    holder.CreateHolderVerification; [md_signer]: afgjwt.NewJoseSigned and Serialize with the signer given, by claims
    and extra headers (None: no signer). *)
Definition jose_signer := gomap json -> headers -> res string.
Record mdopts := { md_all : bool; md_if : list string; md_req : list string; md_binding : option (res string);
                   md_signer : option jose_signer; md_kid : string; md_v5 : bool }.

(** the order in which a map's entries are visited (by key) *)
Definition walk := list string -> list string.

(** credential_sdjwt.go:223-267 filterDisclosures *)
Definition names_map (l : list string) : gomap (option disc) := fold_left (fun m n => mset m n None) l [].
Definition fill (m : gomap (option disc)) (ds : list disc) : gomap (option disc) :=
  fold_left (fun m d => if mhas m (dc_name d) then mset m (dc_name d) (Some d) else m) ds m.
Definition filter_disclosures (W : walk) (ds : list disc) (ifav req : list string) : res (list disc) :=
  let fa := fill (fold_left mdel req (names_map ifav)) ds in
  let rq := fill (names_map req) ds in
  let out := flat_map (fun n => match mget fa n with Some (Some d) => [d] | _ => [] end) (W (map fst fa)) in
  let* r := map_res (fun n => match mget rq n with Some (Some d) => Ok d | _ => Err "disclosure list missing required claim" end)
              (W (map fst rq)) in
  Ok (out ++ r)%list.
(** credential_sdjwt.go:196-221 filteredDisclosureCodes *)
Definition disclosure_codes (W : walk) (ds : list disc) (o : mdopts) : res (list string) :=
  let* l := if md_all o then Ok ds else filter_disclosures W ds (md_if o) (md_req o) in Ok (map dc_str l).
(** credential_sdjwt.go:132-157 filterSDJWTVC *)
Definition filter_sdjwt (W : walk) (je : jenvelope) (o : mdopts) : res string :=
  let* codes := disclosure_codes W (je_discs je) o in
  let* hb := match md_binding o with None => Ok (je_binding je) | Some r => r end in
  Ok (serialize_presentation {| cp_jwt := je_jwt je; cp_discs := codes; cp_holder := hb |}).

(** credential_sdjwt.go:270-276 MakeSDJWTOpts ([mk_hash]: crypto.Hash, None is the zero value) *)
Record mkopts := { mk_hash : option hashalg; mk_v5 : bool; mk_rec : list string; mk_always : list string; mk_nonsd : list string }.
(** the issuer options makeSDJWT builds (credential_sdjwt.go:405-429) *)
Definition issuer_opts (o : mkopts) : iopts :=
  {| io_sub := ""; io_aud := ""; io_jti := ""; io_id := ""; io_exp := None; io_nbf := None; io_iat := None; io_holder := None;
     io_hash := match mk_hash o with Some h => h | None => SHA256 end; io_decoys := false; io_structured := true;
     io_nonsd := (mk_nonsd o ++ ["id"])%list; io_always := mk_always o; io_rec := mk_rec o |}.
(** credential_sdjwt.go:353-437 makeSDJWT, issuer.go:415-470: the token, its claims, the disclosures *)
Definition sd_headers (kid : string) (v5 : bool) : headers :=
  ([("kid", JStr kid)] ++ if v5 then [("typ", JStr "vc+sd-jwt")] else [])%list.
Definition make_sdjwt (E : venv) (I : ienv) (v : credential) (sign : jose_signer) (kid : string) (o : mkopts)
  : res (string * gomap json * list string) :=
  let* c := new_jwt_claims v false in
  let claims := if mk_v5 o then v5_payload c else claims_json c in
  let* sd := new_from_vc (ve_sd E) I (mk_v5 o) (issuer_opts o) claims in
  let* tok := sign (fst sd) (sd_headers kid (mk_v5 o)) in
  Ok (tok, fst sd, snd sd).
(** credential_sdjwt.go:335-350 MakeSDJWT *)
Definition make_sdjwt_text (E : venv) (I : ienv) (v : credential) (sign : jose_signer) (kid : string) (o : mkopts) : res string :=
  let* r := make_sdjwt E I v sign kid o in
  Ok (serialize_issuance {| ci_jwt := fst (fst r); ci_discs := snd r |}).
(** credential_sdjwt.go:159-194 createSDJWTPresentation (an unreadable hash algorithm is ignored there; [crypto.Hash(0)] is
    then refused by GetDisclosureClaims unless there are no disclosures) *)
Definition create_sdjwt_presentation (E : venv) (I : ienv) (W : walk) (v : credential) (sign : jose_signer) (o : mdopts) : res string :=
  let* r := make_sdjwt E I v sign (md_kid o)
              {| mk_hash := None; mk_v5 := md_v5 o; mk_rec := []; mk_always := []; mk_nonsd := [] |} in
  let '(tok, payload, discs) := r in
  let* ds := match discs with
             | [] => Ok []
             | _ => match get_crypto_hash payload with
                    | Ok h => rmap (map snd) (get_disclosure_claims (ve_sd E) h discs (ve_order E))
                    | Panic => Panic
                    | Err _ => Err "parsing disclosure claims from vc sdjwt"
                    end
             end in
  let* codes := disclosure_codes W ds o in
  create_presentation (serialize_issuance {| ci_jwt := tok; ci_discs := discs |}) codes (md_binding o).
(** credential_sdjwt.go:97-130 MarshalWithDisclosure *)
Definition marshal_with_disclosure (E : venv) (I : ienv) (W : walk) (v : credential) (o : mdopts) : res string :=
  if md_all o && negb (is_empty (md_if o) && is_empty (md_req o)) then Err "incompatible options provided" else
  match cr_jwt v, vc_sdalg (cr_contents v) with
  | Some je, Some _ => filter_sdjwt W je o
  | _, _ => match md_signer o with
            | None => Err "credential needs signer to create SD-JWT"
            | Some sign => create_sdjwt_presentation E I W v sign o
            end
  end.

(** credential_sdjwt.go:439-461 displayCredOpts, 575-595 filterDisclosureList *)
Record dpopts := { dp_all : bool; dp_given : list string }.
Definition filter_list (ds : list disc) (o : dpopts) : list disc :=
  if dp_all o then ds else filter (fun d => str_in (dc_name d) (dp_given o)) ds.
(** the map GetDisclosedClaims builds (sdjwt/common/common.go:361-365); DisclosureClaim.Digest is the hash of the disclosure
    with the algorithm the credential was parsed with *)
Definition digest_map (E : sdenv) (h : hashalg) (ds : list disc) : gomap disc :=
  fold_left (fun m d => mset m (get_hash E h (dc_str d)) d) ds [].
(** credential_sdjwt.go:597-607 clearEmpty *)
Fixpoint clear_empty (j : json) : json :=
  match j with
  | JObj m => JObj ((fix go (m : list (string * json)) : list (string * json) :=
      match m with
      | [] => []
      | (k, v) :: m' => match v with
                        | JObj _ => match clear_empty v with JObj [] => go m' | v' => (k, v') :: go m' end
                        | _ => (k, v) :: go m'
                        end
      end) m)
  | _ => j
  end.
Definition clear_subject (m : gomap json) : gomap json :=
  match mget m "credentialSubject" with Some (JObj s) => mset m "credentialSubject" (clear_empty (JObj s)) | _ => m end.
(** the common part of the two (credential_sdjwt.go:487-508, 549-572) *)
Definition display_object (E : venv) (h : hashalg) (je : jenvelope) (o : dpopts) : res (gomap json) :=
  let* hm := decode_cred_jwt (ve_time E) (ve_jwt E) (ve_members E) (je_jwt je) in
  let* m := get_disclosed_claims (digest_map (ve_sd E) h (filter_list (je_discs je) o)) (snd hm) in
  Ok (clear_subject m).
(** credential_sdjwt.go:532-573 CreateDisplayCredentialMap *)
Definition display_map (E : venv) (v : credential) (o : dpopts) : res (gomap json) :=
  if dp_all o && negb (is_empty (dp_given o)) then Err "incompatible options provided" else
  match vc_sdalg (cr_contents v), cr_jwt v with
  | Some h, Some je => display_object E h je o
  | _, _ => Ok (cr_json v)
  end.
(** credential_sdjwt.go:470-523 CreateDisplayCredential *)
Definition display_credential (E : venv) (v : credential) (o : dpopts) : res credential :=
  if dp_all o && negb (is_empty (dp_given o)) then Err "incompatible options provided" else
  match vc_sdalg (cr_contents v), cr_jwt v with
  | Some h, Some je =>
      let* m := display_object E h je o in
      let m := mdel m "proof" in
      let* c := parse_contents (ve_time E) m false in
      Ok (plain m c)
  | _, _ => Ok v
  end.
