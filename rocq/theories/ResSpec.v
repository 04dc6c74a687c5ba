(** Vocabulary and specification for the status list resolver (status/resolver/resolver.go,
    status/internal/identityhub/identityhub.go). *)
From Verif Require Import GoBase Base64 StrLemmas StatusSpec.

(** *** Go's encoding/base64 StdEncoding (padded, "+" and "/"; not strict; CR and LF skipped).  Standard library. *)
Definition std_val (c : ascii) : option N :=
  if Ascii.eqb c "+" then Some 62%N else if Ascii.eqb c "/" then Some 63%N
  else if Ascii.eqb c "-" || Ascii.eqb c "_" then None else b64_val c.
Definition std_char (n : N) : ascii := if (n =? 62)%N then "+"%char else if (n =? 63)%N then "/"%char else b64_char n.
Definition sixbits (c : ascii) : ascii := match std_val c with Some n => b64_char n | None => "!"%char end.
Fixpoint std_quanta (s : string) : option string :=
  match s with
  | EmptyString => Some EmptyString
  | String a (String b (String c (String d s'))) =>
      if Ascii.eqb d "=" then
        match s' with
        | EmptyString => if Ascii.eqb c "=" then b64_quanta (smap sixbits (String a (String b "")))
                         else b64_quanta (smap sixbits (String a (String b (String c ""))))
        | _ => None
        end
      else match b64_quanta (smap sixbits (String a (String b (String c (String d ""))))), std_quanta s' with
           | Some x, Some y => Some (x ++ y)
           | _, _ => None
           end
  | _ => None
  end.
Definition std_decode (s : string) : option string := std_quanta (strip_crlf s).
Definition std_of (c : ascii) : ascii := match b64_val c with Some n => std_char n | None => c end.
Fixpoint std_encode (s : string) : string :=
  match s with
  | EmptyString => EmptyString
  | String a EmptyString => smap std_of (b64_encode s) ++ "=="
  | String a (String b EmptyString) => smap std_of (b64_encode s) ++ "="
  | String a (String b (String c s')) => smap std_of (b64_encode (String a (String b (String c "")))) ++ std_encode s'
  end.

(** *** Query strings (net/url) *)
Definition hex_val (c : ascii) : option N :=
  let n := N_of_ascii c in
  if ((48 <=? n) && (n <=? 57))%N then Some (n - 48)%N
  else if ((97 <=? n) && (n <=? 102))%N then Some (n - 87)%N
  else if ((65 <=? n) && (n <=? 70))%N then Some (n - 55)%N else None.
(** [unescaped s t]: the query component [s] stands for [t] *)
Inductive unescaped : string -> string -> Prop :=
| ue_nil : unescaped "" ""
| ue_plus s t : unescaped s t -> unescaped (String "+" s) (String " " t)
| ue_hex h l a b s t : hex_val h = Some a -> hex_val l = Some b -> unescaped s t ->
    unescaped (String "%" (String h (String l s))) (String (ascii_of_N (16 * a + b)) t)
| ue_other c s t : c <> "+"%char -> c <> "%"%char -> unescaped s t -> unescaped (String c s) (String c t).
(** "k=v", or "k" alone *)
Inductive piece : string -> string -> string -> Prop :=
| pc_pair k v k' v' : free_of "=" k -> unescaped k k' -> unescaped v v' -> piece (k ++ String "=" v) k' v'
| pc_key k k' : free_of "=" k -> unescaped k k' -> piece k k' "".
(** no piece is malformed; the value of the first piece with that name *)
Definition first_value (q name v : string) : Prop :=
  Forall (fun p => p = "" \/ (free_of ";" p /\ exists k w, piece p k w)) (split_on "&" q)
  /\ exists pre p post, split_on "&" q = (pre ++ p :: post)%list /\ p <> "" /\ piece p name v
       /\ Forall (fun p' => p' <> "" -> forall w, ~ piece p' name w) pre.
(** url.QueryEscape *)
Definition hex_digit (n : N) : ascii := if (n <? 10)%N then ascii_of_N (48 + n) else ascii_of_N (55 + n).
Definition unreserved (c : ascii) : bool :=
  let n := N_of_ascii c in
  ((48 <=? n) && (n <=? 57) || (65 <=? n) && (n <=? 90) || (97 <=? n) && (n <=? 122))%N
  || Ascii.eqb c "-" || Ascii.eqb c "_" || Ascii.eqb c "." || Ascii.eqb c "~".
Fixpoint query_escape (s : string) : string :=
  match s with
  | EmptyString => EmptyString
  | String c s' => if unreserved c then String c (query_escape s')
                   else if Ascii.eqb c " " then String "+" (query_escape s')
                   else let n := N_of_ascii c in
                        String "%" (String (hex_digit (n / 16)) (String (hex_digit (n mod 16)) (query_escape s')))
  end.

(** *** The world of the resolver *)
(** A service of a DID document.  [sv_comm]: its endpoint is of a DIDComm kind; [sv_uri]: Endpoint.URI();
    [sv_map]: the endpoint as a JSON object. *)
Record service := { sv_type : string; sv_comm : bool; sv_uri : option string; sv_map : option (gomap json) }.
Record did_doc := { dd_id : string; dd_services : list service }.
Record hub_entry := { he_desc : gomap json; he_data : string }.
Record hub_reply := { hr_msgid : string; hr_code : Z; hr_entries : list hub_entry }.
Record hub_response := { hp_reqid : string; hp_code : option Z; hp_replies : list hub_reply }.
Record hub_request := { hq_id : string; hq_target : string; hq_messages : list (gomap json) }.
Record http_request := { rq_method : string; rq_url : string; rq_headers : list (string * string); rq_body : option hub_request }.
(** no answer, or a status and a body (None: reading it fails) *)
Inductive http_answer := NoReply | Reply (status : Z) (body : option string).
Record nenv := {
  ne_did : string -> res (option did_doc);              (* DID resolution *)
  ne_net : http_request -> http_answer;                 (* HTTP client *)
  ne_url : string -> bool;                              (* http.NewRequestWithContext accepts the URL *)
  ne_uuid : string;
  ne_queries : string -> option (list (gomap json));    (* encoding/json into []map[string]interface{} *)
  ne_response : string -> option hub_response;          (* encoding/json into Response *)
  ne_core : json -> option string;                      (* NewDIDCoreEndpoint(v).URI() *)
  ne_order : gomap json -> list json                    (* the values of a map in iteration order *)
}.

Definition first_such {A} (P : A -> Prop) (l : list A) (x : A) : Prop :=
  exists pre post, l = (pre ++ x :: post)%list /\ P x /\ Forall (fun y => ~ P y) pre.
Definition text_at (m : gomap json) (k s : string) : Prop := mget m k = Some (JStr s).

(** a collections query about some object *)
Definition collections_query (d : gomap json) : Prop :=
  exists m o, text_at d "method" m /\ equal_fold m "CollectionsQuery" = true /\ text_at d "objectId" o.
(** the DID, the message descriptor and the object a DID URL designates *)
Definition designates (N : nenv) (url did : string) (desc : gomap json) (obj : string) : Prop :=
  exists q tail b64 bytes ds,
    url = did ++ String "?" (q ++ tail) /\ free_of "?" did /\ free_of "?" q /\ (tail = "" \/ exists t, tail = String "?" t)
    /\ first_value q "queries" b64 /\ b64 <> "" /\ std_decode b64 = Some bytes /\ ne_queries N bytes = Some ds
    /\ first_such collections_query ds desc /\ text_at desc "objectId" obj.
(** the address of the identity hub of a DID document *)
Definition hub_address (N : nenv) (doc : did_doc) (addr : string) : Prop :=
  exists s, first_such (fun s => sv_type s = "IdentityHub") (dd_services doc) s
    /\ (sv_uri s = Some addr
        \/ (sv_uri s = None /\ sv_comm s = false /\ exists m v, sv_map s = Some m
             /\ first_such (fun v => ne_core N v <> None) (ne_order N m) v /\ ne_core N v = Some addr)).
(** the answer to a request *)
Definition served (N : nenv) (q : http_request) (body : string) : Prop := ne_net N q = Reply 200 (Some body).
(** every status in a hub response is 200 *)
Definition all_ok (r : hub_response) : Prop :=
  (forall c, hp_code r = Some c -> c = 200) /\ Forall (fun p => hr_code p = 200) (hp_replies r).
(** the entry for an object: the first with that id, in any of the replies *)
Definition entry_for (r : hub_response) (obj : string) (e : hub_entry) : Prop :=
  first_such (fun e => exists o, text_at (he_desc e) "objectId" o /\ equal_fold o obj = true)
             (flat_map hr_entries (hp_replies r)) e.
Definition auth (token : string) : list (string * string) :=
  if String.eqb token "" then [] else [("Authorization", "Bearer " ++ token)].
Definition get_of (token url : string) : http_request :=
  {| rq_method := "GET"; rq_url := url; rq_headers := auth token; rq_body := None |}.
Definition post_of (N : nenv) (token : string) (doc : did_doc) (addr : string) (desc : gomap json) : http_request :=
  {| rq_method := "POST"; rq_url := addr; rq_headers := (("Content-Type", "application/json") :: auth token)%list;
     rq_body := Some {| hq_id := ne_uuid N; hq_target := dd_id doc; hq_messages := [desc] |} |}.
Definition is_did (url : string) : Prop := exists r, url = "did:" ++ r.
(** the bytes of the status list credential at a URL *)
Definition delivered (N : nenv) (token url bytes : string) : Prop :=
  (~ is_did url /\ ne_url N url = true /\ served N (get_of token url) bytes)
  \/ (is_did url /\ exists did desc obj doc addr body r e,
        designates N url did desc obj /\ ne_did N did = Ok (Some doc) /\ hub_address N doc addr /\ ne_url N addr = true
        /\ served N (post_of N token doc addr desc) body /\ ne_response N body = Some r /\ all_ok r
        /\ entry_for r obj e /\ std_decode (he_data e) = Some bytes).
