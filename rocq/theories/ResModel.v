(** Model of status/resolver/resolver.go and status/internal/identityhub/identityhub.go.
    Every function that talks to the network returns the list of HTTP requests it made next to its result. *)
From Verif Require Import GoBase Base64 JwtSpec VcSpec StatusSpec VcModel VcParse ResSpec.

(** net/url QueryUnescape (standard library) *)
Fixpoint query_unescape (s : string) : option string :=
  match s with
  | EmptyString => Some EmptyString
  | String c s' =>
      if Ascii.eqb c "%" then
        match s' with
        | String h (String l s'') =>
            match hex_val h, hex_val l, query_unescape s'' with
            | Some a, Some b, Some t => Some (String (ascii_of_N (16 * a + b)) t)
            | _, _, _ => None
            end
        | _ => None
        end
      else if Ascii.eqb c "+" then option_map (String " ") (query_unescape s')
      else option_map (String c) (query_unescape s')
  end.
(** strings.Cut(s, "=") *)
Fixpoint cut_eq (s : string) : string * string :=
  match s with
  | EmptyString => (EmptyString, EmptyString)
  | String c s' => if Ascii.eqb c "=" then (EmptyString, s') else let '(a, b) := cut_eq s' in (String c a, b)
  end.
Fixpoint contains (c : ascii) (s : string) : bool :=
  match s with EmptyString => false | String d s' => Ascii.eqb c d || contains c s' end.
(** net/url ParseQuery (standard library): the pairs in order; any malformed piece is an error *)
Fixpoint parse_pieces (l : list string) : option (list (string * string)) :=
  match l with
  | [] => Some []
  | p :: l' =>
      if contains ";" p then None
      else if String.eqb p "" then parse_pieces l'
      else let '(k, v) := cut_eq p in
           match query_unescape k, query_unescape v, parse_pieces l' with
           | Some k', Some v', Some r => Some ((k', v') :: r)
           | _, _, _ => None
           end
  end.
Definition parse_query (q : string) : option (list (string * string)) := parse_pieces (split_on "&" q).
(** url.Values.Get *)
Definition query_get (vs : list (string * string)) (k : string) : string :=
  match mget vs k with Some v => v | None => "" end.

(** resolver.go:172-201 getQueries *)
Definition get_queries (N : nenv) (url : string) : res (list (gomap json)) :=
  match split_on "?" url with
  | _ :: q :: _ =>
      match parse_query q with
      | None => Err "parse query from didURL"
      | Some vs =>
          let t := query_get vs "queries" in
          let* _ := guard (negb (String.eqb t "")) "missing 'queries' parameter" in
          match std_decode t with
          | None => Err "decode queries key"
          | Some b => match ne_queries N b with Some ds => Ok ds | None => Err "unmarshal queries" end
          end
      end
  | _ => Err "missing query"
  end.
(** identityhub.go:107-112 GetObjectID, 114-119 IsMethod *)
Definition object_id (d : gomap json) : option string := match mget d "objectId" with Some (JStr s) => Some s | _ => None end.
Definition is_method (d : gomap json) (method : string) : bool :=
  match mget d "method" with Some (JStr s) => equal_fold s method | _ => false end.
(** identityhub.go:144-160 firstValidMessage *)
Fixpoint first_valid (method : string) (ds : list (gomap json)) : res (string * gomap json) :=
  match ds with
  | [] => Err "objectId is not defined"
  | d :: ds' => if negb (is_method d method) then first_valid method ds'
                else match object_id d with None => first_valid method ds' | Some o => Ok (o, d) end
  end.
(** identityhub.go:121-142 GetRequest *)
Definition get_request (N : nenv) (hub method : string) (ds : list (gomap json)) : res (string * hub_request) :=
  let* od := first_valid method ds in
  Ok (fst od, {| hq_id := ne_uuid N; hq_target := hub; hq_messages := [snd od] |}).
(** identityhub.go:191-217 getDIDCoreServiceEndpoint, the loop of 207-214 *)
Fixpoint first_uri (N : nenv) (vs : list json) : res string :=
  match vs with
  | [] => Err "extract DIDCore service endpoint"
  | v :: vs' => match ne_core N v with Some u => Ok u | None => first_uri N vs' end
  end.
Definition core_endpoint (N : nenv) (s : service) : res string :=
  match sv_uri s with
  | Some u => Ok u
  | None => match sv_map s with None => Err "unmarshal DIDCore service endpoint" | Some m => first_uri N (ne_order N m) end
  end.
(** identityhub.go:162-189 ServiceEndpoint *)
Definition service_endpoint (N : nenv) (doc : did_doc) : res string :=
  match find (fun s => String.eqb (sv_type s) "IdentityHub") (dd_services doc) with
  | None => Err "no identity hub service supplied"
  | Some s => if sv_comm s then match sv_uri s with Some u => Ok u | None => Err "service endpoint URL" end
              else core_endpoint N s
  end.
(** resolver.go:143-170 sendHTTPRequest: the request that is sent, and the body of the answer *)
Definition send_request (N : nenv) (q : http_request) (status : Z) (token : string) : list http_request * res string :=
  let q := if String.eqb token "" then q
           else {| rq_method := rq_method q; rq_url := rq_url q;
                   rq_headers := app (rq_headers q) [("Authorization", "Bearer " ++ token)]; rq_body := rq_body q |} in
  ([q], match ne_net N q with
        | NoReply => Err "client.Do"
        | Reply _ None => Err "unable to read response"
        | Reply st (Some b) => let* _ := guard (st =? status) "unexpected response code" in Ok b
        end).
(** identityhub.go:63-84 CheckStatus *)
Definition check_status (r : hub_response) : res unit :=
  let* _ := match hp_code r with Some c => guard (c =? 200) "request level status" | None => Ok tt end in
  guard (forallb (fun p => hr_code p =? 200) (hp_replies r)) "message level status".
(** identityhub.go:86-105 GetMessageData, the inner loop *)
Fixpoint entry_data (obj : string) (es : list hub_entry) : option (res string) :=
  match es with
  | [] => None
  | e :: es' =>
      match object_id (he_desc e) with
      | Some o => if equal_fold o obj then
                    Some match std_decode (he_data e) with Some b => Ok b | None => Err "decode message bytes" end
                  else entry_data obj es'
      | None => entry_data obj es'
      end
  end.
(** and the outer loop *)
Fixpoint message_data (obj : string) (rs : list hub_reply) : res string :=
  match rs with
  | [] => Err "unable to get message by object ID"
  | r :: rs' => match entry_data obj (hr_entries r) with Some x => x | None => message_data obj rs' end
  end.
(** resolver.go:87-141 resolveDIDRelativeURL.  A nil DIDDocument is dereferenced at line 100. *)
Definition resolve_did_url (N : nenv) (token url : string) : list http_request * res string :=
  match (let* d := ne_did N (hd "" (split_on "?" url)) in
         let* qs := get_queries N url in
         match d with
         | None => Panic
         | Some doc =>
             let* or := get_request N (dd_id doc) "CollectionsQuery" qs in
             let* addr := service_endpoint N doc in
             let* _ := guard (ne_url N addr) "create request to identity hub" in
             Ok (fst or, {| rq_method := "POST"; rq_url := addr; rq_headers := [("Content-Type", "application/json")];
                            rq_body := Some (snd or) |})
         end) with
  | Ok (obj, q) =>
      let '(sent, body) := send_request N q 200 token in
      (sent, let* b := body in
             match ne_response N b with
             | None => Err "unmarshal Response"
             | Some r => let* _ := check_status r in message_data obj (hp_replies r)
             end)
  | Err e => ([], Err e)
  | Panic => ([], Panic)
  end.
(** the options of resolver.go:71-75 *)
Definition status_opts : copts := {|
  co_jwt_check := None; co_ld_check := None; co_cwt_check := None; co_no_proof := true; co_no_validation := true;
  co_no_related := false; co_no_custom := false; co_schema := ""; co_schema_of := None; co_mode := MCombined;
  co_contexts := []; co_types := []; co_strict := false; co_ld_types := false; co_external := [];
  co_di := None; co_di_purpose := ""; co_di_domain := ""; co_di_challenge := "" |}.
(** resolver.go:45-81 Resolver.Resolve *)
Definition resolver_run (N : nenv) (V : venv) (token url : string) : list http_request * res credential :=
  let '(sent, bytes) :=
    if has_prefix "did:" url then resolve_did_url N token url
    else if ne_url N url then
      send_request N {| rq_method := "GET"; rq_url := url; rq_headers := []; rq_body := None |} 200 token
    else ([], Err "create request") in
  (sent, let* b := bytes in parse_credential V status_opts b).
Definition resolve_list (N : nenv) (V : venv) (token url : string) : res credential := snd (resolver_run N V token url).
(** what status/status.go:83-98 reads of the credential it gets *)
Definition as_list (v : credential) : list_vc :=
  {| lv_issuer := option_map is_id (vc_issuer (cr_contents v)); lv_subjects := map sj_custom (vc_subject (cr_contents v)) |}.
Definition status_resolver (N : nenv) (V : venv) (token url : string) : res list_vc := rmap as_list (resolve_list N V token url).
