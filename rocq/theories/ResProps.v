(** Property theorems for the status list resolver: C176-C186. *)
From Verif Require Import GoBase Base64 StrLemmas JwtSpec DiSpec VcSpec StatusSpec StatusModel StatusProofs StatusProps VcModel VcProofs VcParse
  JwtModel VcText VcPanic VcProps VcProps2 VcProps3 DiProofs JwtProofs ResSpec ResModel ResProofs.

(** a world for the examples: one HTTP server, one DID with a hub *)
Definition rx_desc : gomap json := [("method", JStr "collectionsquery"); ("objectId", JStr "obj")].
Definition rx_list : list (string * json) :=
  [("@context", JStr v1_context); ("type", JStr "VerifiableCredential"); ("issuer", JStr "did:i");
   ("credentialSubject", JObj [("id", JStr "urn:l"); ("encodedList", JStr "uBIA")])].
Definition rx_V : venv := toyV0 [] [("{l", rx_list)].
Definition rx_doc (m : option (gomap json)) (u : option string) : did_doc :=
  {| dd_id := "did:x:hub"; dd_services := [{| sv_type := "Other"; sv_comm := true; sv_uri := Some "https://o"; sv_map := None |};
                                          {| sv_type := "IdentityHub"; sv_comm := false; sv_uri := u; sv_map := m |}] |}.
Definition rx_response (reqid oid : string) (c : option Z) (cs : list Z) : hub_response :=
  {| hp_reqid := reqid; hp_code := c;
     hp_replies := map (fun c => {| hr_msgid := "0"; hr_code := c;
       hr_entries := [{| he_desc := [("objectId", JStr "zzz")]; he_data := "" |}; {| he_desc := [("objectId", JStr oid)]; he_data := std_encode "{l" |}] |}) cs |}.
Definition rx_net (q : http_request) : http_answer :=
  if String.eqb (rq_url q) "https://l" && String.eqb (rq_method q) "GET" then Reply 200 (Some "{l")
  else if String.eqb (rq_url q) "https://hub" && String.eqb (rq_method q) "POST" then Reply 200 (Some "R") else Reply 404 (Some "").
Definition rx_env (doc : did_doc) (r : hub_response) (order : gomap json -> list json) : nenv := {|
  ne_did := fun d => if String.eqb d "did:x" then Ok (Some doc) else Err "x"; ne_net := rx_net; ne_url := fun u => has_prefix "http" u;
  ne_uuid := "u-1"; ne_queries := fun t => if String.eqb t "Q" then Some [[("method", JStr "Other")]; rx_desc] else None;
  ne_response := fun t => if String.eqb t "R" then Some r else None;
  ne_core := fun j => match j with JStr s => Some s | _ => None end; ne_order := order |}.
Definition rx_N : nenv := rx_env (rx_doc None (Some "https://hub")) (rx_response "u-1" "obj" (Some 200) [200; 200]) (map snd).
Definition rx_url : string := "did:x?service=IdentityHub&queries=" ++ query_escape (std_encode "Q").

(** ** C176  Resolve returns exactly what was delivered: the credential parsed from the body of a 200 answer to the GET of
    that URL, or, for a DID URL, from the data of the first entry with the requested object id in an all-200 response of
    the identity hub of that DID to the query of that URL. *)
Theorem C176_resolve_exact : forall (N : nenv) (V : venv) (token url : string) (vc : credential),
  resolve_list N V token url = Ok vc <->
  exists bytes, delivered N token url bytes /\ parse_credential V status_opts bytes = Ok vc.
Proof.
  intros N V token url vc. unfold resolve_list. rewrite resolver_run_spec. cbn [snd]. split.
  - intros H. apply bind_ok in H as (b & Hb & H). apply list_bytes_iff in Hb. eauto.
  - intros (b & Hb & H). apply list_bytes_iff in Hb. now rewrite Hb.
Qed.
(** what is delivered is determined by the URL and the world *)
Theorem C176_one_answer : forall (N : nenv) (token url a b : string), delivered N token url a -> delivered N token url b -> a = b.
Proof. intros N token url a b Ha Hb. apply list_bytes_iff in Ha, Hb. congruence. Qed.
Example C176_example :
  is_ok (resolve_list rx_N rx_V "tok" rx_url) = true /\ is_ok (resolve_list rx_N rx_V "" "https://l") = true
  /\ delivered rx_N "tok" rx_url "{l" /\ is_ok (resolve_list rx_N rx_V "" "https://other") = false.
Proof.
  split; [vm_compute; reflexivity|]. split; [vm_compute; reflexivity|]. split; [|vm_compute; reflexivity].
  apply list_bytes_iff. vm_compute. reflexivity.
Qed.
Print Assumptions C176_resolve_exact.
Print Assumptions C176_one_answer.

(** ** C177  At most one HTTP request is made per Resolve, and it is: the GET of that URL; or one POST to the identity hub
    of the DID named before the "?", carrying one message, the first collections query of the URL.  A non-empty bearer
    token is attached to it, an empty one is not. *)
Theorem C177_requests : forall (N : nenv) (V : venv) (token url : string),
  let sent := fst (resolver_run N V token url) in
  (~ is_did url -> sent = if ne_url N url then [get_of token url] else [])
  /\ (is_did url -> sent = [] \/ exists did desc obj doc addr, designates N url did desc obj /\ ne_did N did = Ok (Some doc)
        /\ hub_address N doc addr /\ sent = [post_of N token doc addr desc])
  /\ (forall did desc obj doc addr, is_did url -> designates N url did desc obj -> ne_did N did = Ok (Some doc) ->
        hub_address N doc addr -> ne_url N addr = true -> sent = [post_of N token doc addr desc])
  /\ (forall q v, In q sent -> (In ("Authorization", v) (rq_headers q) <-> token <> "" /\ v = "Bearer " ++ token)).
Proof.
  intros N V token url. cbn zeta. rewrite resolver_run_spec. cbn [fst].
  assert (Hauth : forall v, In ("Authorization", v) (auth token) <-> token <> "" /\ v = "Bearer " ++ token).
  { intros v. unfold auth. destruct (String.eqb_spec token "") as [->|Nt]; cbn [In]; [intuition congruence|].
    split; [intros [[= <-]|[]]; auto|]. intros [_ ->]. now left. }
  unfold list_bytes. destruct (has_prefix "did:" url) eqn:Ep.
  - apply prefix_iff in Ep. destruct (resolve_did_cases N token url) as [(did & desc & obj & doc & addr & Hd & Hr & Ha & Hu & Hs & _)|(Hno & Hs & _)]; rewrite Hs.
    + split; [contradiction|]. split; [intros _; right; exists did, desc, obj, doc, addr; auto|]. split.
      * intros did' desc' obj' doc' addr' _ H1 H2 H3 _. destruct (designates_fun _ _ _ _ _ _ _ _ Hd H1) as (<- & <- & <-).
        rewrite Hr in H2. injection H2 as <-. now rewrite (hub_address_fun _ _ _ _ Ha H3).
      * intros q v [<-|[]]. cbn [post_of rq_headers In]. rewrite Hauth. intuition congruence.
    + split; [contradiction|]. split; [auto|]. split; [intros; exfalso; eauto|]. intros q v [].
  - assert (Hn : ~ is_did url) by (intros H; apply prefix_iff in H; congruence).
    destruct (ne_url N url); [rewrite send_spec; cbn [app fst]; fold (get_of token url)|cbn [fst]].
    + split; [auto|]. split; [contradiction|]. split; [contradiction|]. intros q v [<-|[]]. cbn [get_of rq_headers]. apply Hauth.
    + split; [auto|]. split; [contradiction|]. split; [contradiction|]. intros q v [].
Qed.
Example C177_example :
  fst (resolver_run rx_N rx_V "tok" rx_url) =
    [{| rq_method := "POST"; rq_url := "https://hub";
        rq_headers := [("Content-Type", "application/json"); ("Authorization", "Bearer tok")];
        rq_body := Some {| hq_id := "u-1"; hq_target := "did:x:hub"; hq_messages := [rx_desc] |} |}]
  /\ fst (resolver_run rx_N rx_V "" "https://l") = [{| rq_method := "GET"; rq_url := "https://l"; rq_headers := []; rq_body := None |}].
Proof. split; vm_compute; reflexivity. Qed.
Print Assumptions C177_requests.

(** ** C178  No credential comes out of a failed exchange: any HTTP status but 200, an unreadable body, a request-level or any
    message-level hub status but 200, or no entry with the object id. *)
Theorem C178_failures : forall (N : nenv) (V : venv) (token url : string),
  (~ is_did url -> (forall body, ne_net N (get_of token url) <> Reply 200 (Some body)) -> is_ok (resolve_list N V token url) = false)
  /\ (forall did desc obj doc addr, is_did url -> designates N url did desc obj -> ne_did N did = Ok (Some doc) -> hub_address N doc addr ->
       ((forall body, ne_net N (post_of N token doc addr desc) <> Reply 200 (Some body))
        \/ exists body, ne_net N (post_of N token doc addr desc) = Reply 200 (Some body) /\
             (ne_response N body = None \/ exists r, ne_response N body = Some r /\
                ((exists c, hp_code r = Some c /\ c <> 200) \/ (exists p, In p (hp_replies r) /\ hr_code p <> 200)
                 \/ (forall p e o, In p (hp_replies r) -> In e (hr_entries p) -> text_at (he_desc e) "objectId" o -> equal_fold o obj = false)))) ->
       is_ok (resolve_list N V token url) = false).
Proof.
  intros N V token url.
  assert (Hno : (forall b, ~ delivered N token url b) -> is_ok (resolve_list N V token url) = false).
  { intros H. destruct (resolve_list N V token url) as [vc| |] eqn:E; [|reflexivity..].
    apply C176_resolve_exact in E as (b & Hb & _). now apply H in Hb. }
  split.
  - intros Hn Hb. apply Hno. intros b [(_ & _ & H)|(H & _)]; [|contradiction]. now apply (Hb b).
  - intros did desc obj doc addr Hi Hd Hr Ha Hf. apply Hno.
    intros b [(H & _)|(_ & did' & desc' & obj' & doc' & addr' & body & r & e & H1 & H2 & H3 & _ & H5 & H6 & H7 & H8 & _)]; [contradiction|].
    destruct (designates_fun _ _ _ _ _ _ _ _ Hd H1) as (<- & <- & <-). rewrite Hr in H2. injection H2 as <-.
    rewrite <- (hub_address_fun _ _ _ _ Ha H3) in H5. unfold served in H5. destruct Hf as [Hf|(body' & Hb & Hf)]; [now apply (Hf body)|].
    rewrite Hb in H5. injection H5 as ->. destruct Hf as [Hf|(r' & Hr' & Hf)]; [congruence|]. rewrite H6 in Hr'. injection Hr' as <-.
    destruct H7 as [Hc Hp]. destruct Hf as [(c & Ec & Nc)|[(p & Hin & Np)|Hnone]].
    + now apply Nc, Hc.
    + rewrite Forall_forall in Hp. now apply Np, Hp.
    + destruct H8 as (pre & post & Hl & (o & Ho & Hf) & _).
      assert (Hin : In e (flat_map hr_entries (hp_replies r))) by (rewrite Hl; apply in_or_app; right; now left).
      apply in_flat_map in Hin as (p & Hp1 & Hp2). rewrite (Hnone p e o Hp1 Hp2 Ho) in Hf. discriminate.
Qed.
Example C178_example :
  let bad c cs := rx_env (rx_doc None (Some "https://hub")) (rx_response "u-1" "obj" c cs) (map snd) in
  is_ok (resolve_list (bad None [200]) rx_V "" rx_url) = true /\ is_ok (resolve_list (bad (Some 500) [200]) rx_V "" rx_url) = false
  /\ is_ok (resolve_list (bad None [200; 404]) rx_V "" rx_url) = false /\ is_ok (resolve_list (bad None []) rx_V "" rx_url) = false.
Proof. cbn zeta. repeat split; vm_compute; reflexivity. Qed.
Print Assumptions C178_failures.

(** ** C179  A DID URL made in the standard way (standard base64 of the JSON text of the queries, escaped for a query string)
    makes the hub be asked exactly the first collections query of that text, whatever bytes the text contains. *)
Lemma hex_val_digit n : (n < 16)%N -> hex_val (hex_digit n) = Some n.
Proof.
  intros H. assert (E : In n (map N.of_nat (seq 0 16))).
  { apply in_map_iff. exists (N.to_nat n). split; [lia|]. apply in_seq. lia. }
  cbn [seq map In] in E. repeat (destruct E as [<-|E]; [vm_compute; reflexivity|]). destruct E.
Qed.
Lemma unescaped_escape s : unescaped (query_escape s) s.
Proof.
  induction s as [|c s IH]; cbn [query_escape]; [constructor|]. destruct (unreserved c) eqn:Eu.
  - constructor; [..|assumption]; intros ->; discriminate.
  - destruct (Ascii.eqb_spec c " ") as [->|Nc]; [now constructor|]. cbn zeta.
    assert (Hlt : (N_of_ascii c < 256)%N) by apply ascii_lt.
    assert (Hd : (N_of_ascii c / 16 < 16)%N) by (apply N.div_lt_upper_bound; lia).
    assert (Hm : (N_of_ascii c mod 16 < 16)%N) by (apply N.mod_lt; lia).
    pose proof (ue_hex _ _ _ _ _ _ (hex_val_digit _ Hd) (hex_val_digit _ Hm) IH) as H.
    rewrite <- N.div_mod in H by lia. now rewrite ascii_N_embedding in H.
Qed.
Lemma hex_digit_free n x : (n < 16)%N -> In x ["&"; "="; ";"; "?"]%char -> hex_digit n <> x.
Proof.
  intros H Hx. assert (E : In n (map N.of_nat (seq 0 16))).
  { apply in_map_iff. exists (N.to_nat n). split; [lia|]. apply in_seq. lia. }
  cbn [seq map In] in E, Hx. repeat (destruct E as [<-|E]; [intuition (subst; discriminate)|]). destruct E.
Qed.
Lemma escape_free s x : In x ["&"; "="; ";"; "?"]%char -> free_of x (query_escape s).
Proof.
  intros Hx. induction s as [|c s IH]; cbn [query_escape]; [intros []|]. destruct (unreserved c) eqn:Eu.
  - apply free_of_cons. split; [|assumption]. intros ->. cbn [In] in Hx. intuition (subst; discriminate).
  - destruct (Ascii.eqb c " "); cbn zeta.
    + apply free_of_cons. split; [|assumption]. cbn [In] in Hx. intuition (subst; discriminate).
    + assert (Hlt : (N_of_ascii c < 256)%N) by apply ascii_lt.
      apply free_of_cons. split; [cbn [In] in Hx; intuition (subst; discriminate)|].
      apply free_of_cons. split; [apply hex_digit_free; [apply N.div_lt_upper_bound; lia|assumption]|].
      apply free_of_cons. split; [apply hex_digit_free; [apply N.mod_lt; lia|assumption]|assumption].
Qed.
Lemma std_encode_nonempty s : s <> "" -> std_encode s <> "".
Proof. destruct s as [|a [|b [|c s]]]; [congruence|discriminate..]. Qed.
Lemma free_of_app x a b : free_of x a -> free_of x b -> free_of x (a ++ b).
Proof. intros Ha Hb. induction a as [|c a IH]; [exact Hb|]. cbn. apply free_of_cons in Ha as [H1 H2]. apply free_of_cons. auto. Qed.
Definition list_url (did text : string) : string := did ++ "?queries=" ++ query_escape (std_encode text).
Theorem C179_query_round_trip : forall (N : nenv) (V : venv) (token did text : string) (ds : list (gomap json)) (desc : gomap json) (addr : string) (doc : did_doc),
  is_did did -> free_of "?" did -> text <> "" -> ne_queries N text = Some ds ->
  first_such collections_query ds desc -> ne_did N did = Ok (Some doc) -> hub_address N doc addr -> ne_url N addr = true ->
  fst (resolver_run N V token (list_url did text)) = [post_of N token doc addr desc].
Proof.
  intros N V token did text ds desc addr doc Hi Hf Ht Hq Hd Hr Ha Hu.
  assert (Ho : exists o, text_at desc "objectId" o) by (destruct Hd as (? & ? & _ & (m & o & _ & _ & H) & _); eauto). destruct Ho as (o & Ho).
  destruct (C177_requests N V token (list_url did text)) as (_ & _ & H & _). cbn zeta in H.
  assert (Hi' : is_did (list_url did text)) by (destruct Hi as [r ->]; exists (r ++ "?queries=" ++ query_escape (std_encode text)); unfold list_url; now rewrite append_assoc_s).
  apply (H did desc o doc addr Hi'); try assumption. clear H.
  assert (Hfr : forall x, In x ["&"; "="; ";"; "?"]%char -> free_of x (query_escape (std_encode text))) by (intros; now apply escape_free).
  exists ("queries=" ++ query_escape (std_encode text)), "", (std_encode text), text, ds. rewrite append_nil_r.
  split; [reflexivity|]. split; [assumption|]. split.
  { apply free_of_app; [|apply Hfr; cbn; tauto]. repeat (apply free_of_cons; split; [discriminate|]). intros []. }
  split; [now left|]. split; [|split; [now apply std_encode_nonempty|split; [apply std_decode_encode|auto]]].
  assert (Hp : piece ("queries=" ++ query_escape (std_encode text)) "queries" (std_encode text)).
  { apply (pc_pair "queries" _ "queries"); [repeat (apply free_of_cons; split; [discriminate|]); intros []| |apply unescaped_escape].
    apply query_unescape_iff. reflexivity. }
  unfold first_value. rewrite split_on_free.
  2:{ apply free_of_app; [|apply Hfr; cbn; tauto]. repeat (apply free_of_cons; split; [discriminate|]). intros []. }
  split.
  - constructor; [|constructor]. right. split; [|eauto]. apply free_of_app; [|apply Hfr; cbn; tauto]. repeat (apply free_of_cons; split; [discriminate|]). intros [].
  - exists []%list. eexists. exists []%list. split; [reflexivity|]. split; [discriminate|]. split; [exact Hp|constructor].
Qed.
Example C179_example : is_did "did:x" /\ free_of "?" "did:x" /\ ne_queries rx_N "Q" = Some [[("method", JStr "Other")]; rx_desc]
  /\ first_such collections_query [[("method", JStr "Other")]; rx_desc] rx_desc /\ hub_address rx_N (rx_doc None (Some "https://hub")) "https://hub"
  /\ query_escape (std_encode "~?>") = "fj8%2B".
Proof.
  split; [now exists "x"|]. split; [intros H; vm_compute in H; intuition discriminate|]. split; [reflexivity|]. split.
  { apply (first_such_find _ _ _ _ is_cq_iff). vm_compute. reflexivity. }
  split; [apply hub_address_iff; vm_compute; reflexivity|vm_compute; reflexivity].
Qed.
Print Assumptions C179_query_round_trip.

(** ** C180  End to end: when VerifyStatus with this resolver accepts, every status entry of the credential is clear in the list
    that was delivered for its URL, and that list names the credential's issuer. *)
Definition clear_in_delivered (gunzip : string -> option string) mb (N : nenv) (V : venv) (token : string) (issuer : option string) (e : status_entry) : Prop :=
  exists url bytes vc iss idxs idx subj enc raw bits,
    mget (se_fields e) "statusListCredential" = Some (JStr url) /\ delivered N token url bytes /\ parse_credential V status_opts bytes = Ok vc
    /\ option_map is_id (vc_issuer (cr_contents vc)) = Some iss /\ issuer = Some iss
    /\ mget (se_fields e) "statusListIndex" = Some (JStr idxs) /\ StatusSpec.denotes idxs idx /\ 0 <= idx
    /\ hd_error (vc_subject (cr_contents vc)) = Some subj /\ mget (sj_custom subj) "encodedList" = Some (JStr enc)
    /\ unwrapped b64_decode mb (se_type e) enc raw /\ gunzip raw = Some bits
    /\ nth_error (bits_lsb bits) (Z.to_nat idx) = Some false.
Theorem C180_accept_end_to_end : forall gunzip mb (N : nenv) (V : venv) (token : string) (issuer : option string) (entries : list status_entry),
  verify_status gunzip mb (status_resolver N V token) issuer entries = Ok tt ->
  entries <> [] /\ Forall (clear_in_delivered gunzip mb N V token issuer) entries.
Proof.
  intros gunzip mb N V token issuer es H. apply C03_accept_sound in H as [Hne Hf]. split; [assumption|].
  eapply Forall_impl; [|exact Hf]. intros e (url & idxs & idx & purpose & vc & iss & subj & enc & raw & bits & H1 & H2 & _ & _ & _ & H6 & _ & H8 & H9 & H10 & H11 & H12 & H13 & H14 & H15 & H16).
  unfold status_resolver in H8. destruct (resolve_list N V token url) as [v| |] eqn:Er; try discriminate. injection H8 as <-.
  apply C176_resolve_exact in Er as (bytes & Hb & Hv). cbn [as_list lv_issuer lv_subjects] in *.
  assert (Hs : exists s, hd_error (vc_subject (cr_contents v)) = Some s /\ sj_custom s = subj).
  { destruct (vc_subject (cr_contents v)); [discriminate|]. injection H11 as <-. eexists. split; reflexivity. }
  destruct Hs as (s & Hs & <-). exists url, bytes, v, iss, idxs, idx, s, enc, raw, bits. repeat split; assumption.
Qed.
Definition rx_entry (i : string) : status_entry :=
  {| se_type := "BitstringStatusListEntry";
     se_fields := [("statusListCredential", JStr rx_url); ("statusListIndex", JStr i); ("statusPurpose", JStr "revocation")] |}.
Example C180_example :
  verify_status Some (fun _ _ => None) (status_resolver rx_N rx_V "tok") (Some "did:i") [rx_entry "0"; rx_entry "14"] = Ok tt
  /\ verify_status Some (fun _ _ => None) (status_resolver rx_N rx_V "tok") (Some "did:i") [rx_entry "0"; rx_entry "15"] = Err "revoked"
  /\ is_ok (verify_status Some (fun _ _ => None) (status_resolver rx_N rx_V "tok") (Some "did:j") [rx_entry "0"]) = false.
Proof. repeat split; vm_compute; reflexivity. Qed.
Print Assumptions C180_accept_end_to_end.

(** ** C181  (refuted) The status list is authenticated: whoever answers the request chooses, for any issuer, the list that is
    used, without any proof. *)
Definition forged (i enc : string) : gomap json :=
  [("@context", JStr v1_context); ("type", JStr "VerifiableCredential"); ("issuer", JStr i); ("credentialSubject", JObj [("encodedList", JStr enc)])].
Theorem C181_unsigned_list_refuted : forall (N : nenv) (V : venv) (token url text i enc : string),
  i <> "" -> ~ is_did url -> ne_url N url = true -> served N (get_of token url) text ->
  json_text V text (forged i enc) -> ve_related V [] = Ok tt ->
  exists vc, resolve_list N V token url = Ok vc
    /\ cr_proofs vc = [] /\ cr_jwt vc = None /\ cr_cwt vc = None
    /\ status_resolver N V token url = Ok {| lv_issuer := Some i; lv_subjects := [[("encodedList", JStr enc)]] |}.
Proof.
  intros N V token url text i enc Hi Hn Hu Hs Ht Hrel.
  assert (Hnd : NoDup (map fst (forged i enc))) by (cbn; repeat constructor; cbn; intuition discriminate).
  destruct (json_parser_text V status_opts text _ Ht) as (ms & Hp & Hj).
  assert (Hf : forall k, fld ms k = fld (forged i enc) k) by (intros k; now apply fld_perm).
  assert (Hc : exists c, parse_contents (ve_time V) ms false = Ok c /\ vc_related c = []
      /\ vc_issuer c = Some {| is_id := i; is_custom := [] |} /\ vc_subject c = [{| sj_id := ""; sj_custom := [("encodedList", JStr enc)] |}]).
  { rewrite (parse_contents_perm _ _ _ _ Hp Hnd). apply String.eqb_neq in Hi. unfold parse_contents, forged. cbn. rewrite Hi. cbn.
    eexists. split; [reflexivity|]. auto. }
  destruct Hc as (c & Hc & Hcr & Hci & Hcs).
  rewrite Hc, Hf in Hj. cbn [bind forged fld mget parse_ld_proof status_opts co_no_validation] in Hj. cbn in Hj.
  set (vc := {| cr_json := ms; cr_contents := c; cr_proofs := []; cr_jwt := None; cr_cwt := None |}) in Hj.
  assert (Hpc : parse_credential V status_opts text = Ok vc).
  { unfold parse_credential. cbn [try_parsers].
    assert (He : enveloped_parser V status_opts text = Ok None).
    { unfold enveloped_parser. destruct (parse_json_text _ _ _ Ht) as (ms' & -> & Hp').
      rewrite (fld_perm _ _ "type" Hp' Hnd). reflexivity. }
    unfold parse_with at 1. rewrite He. cbn [bind]. unfold parse_with at 1. rewrite Hj. cbn [bind status_opts co_no_proof co_no_related].
    cbn [cr_contents vc]. rewrite Hcr, Hrel. reflexivity. }
  assert (Hr : resolve_list N V token url = Ok vc).
  { apply C176_resolve_exact. exists text. split; [|assumption]. left. auto. }
  exists vc. split; [assumption|]. split; [reflexivity|]. split; [reflexivity|]. split; [reflexivity|].
  unfold status_resolver. rewrite Hr. unfold rmap, as_list, vc. cbn [cr_contents]. now rewrite Hci, Hcs.
Qed.
Example C181_example :
  let V := toyV0 [] [("{l", forged "did:i" "uAAA")] in
  json_text V "{l" (forged "did:i" "uAAA") /\ served rx_N (get_of "" "https://l") "{l"
  /\ verify_status Some (fun _ _ => None) (status_resolver rx_N V "") (Some "did:i")
       [{| se_type := "BitstringStatusListEntry"; se_fields := [("statusListCredential", JStr "https://l"); ("statusListIndex", JStr "2"); ("statusPurpose", JStr "revocation")] |}] = Ok tt.
Proof.
  cbn zeta. split; [|split; vm_compute; reflexivity].
  exists "l", (forged "did:i" "uAAA"). split; [reflexivity|]. split; [vm_compute; reflexivity|]. split; [apply Permutation_refl|]. split.
  - cbn; repeat constructor; cbn; intuition discriminate.
  - intros k Hk. cbn in Hk. intuition (subst; vm_compute; reflexivity).
Qed.
Print Assumptions C181_unsigned_list_refuted.

(** ** C182  (refuted) The data returned is for the object that was asked for, in the answer to that request: object ids are
    compared without regard to case, and neither the request id nor the message id of the answer is looked at. *)
Theorem C182_binding_refuted :
  (exists N V url did desc obj doc addr vc r e o, resolve_list N V "" url = Ok vc /\ designates N url did desc obj /\ ne_did N did = Ok (Some doc)
     /\ hub_address N doc addr /\ ne_response N "R" = Some r /\ served N (post_of N "" doc addr desc) "R"
     /\ entry_for r obj e /\ text_at (he_desc e) "objectId" o /\ o <> obj)
  /\ (forall N V token url reqid' msgs,
        let N' := {| ne_did := ne_did N; ne_net := ne_net N; ne_url := ne_url N; ne_uuid := ne_uuid N; ne_queries := ne_queries N;
                     ne_response := fun t => option_map (fun r => {| hp_reqid := reqid'; hp_code := hp_code r;
                       hp_replies := map (fun p => {| hr_msgid := msgs p; hr_code := hr_code p; hr_entries := hr_entries p |}) (hp_replies r) |}) (ne_response N t);
                     ne_core := ne_core N; ne_order := ne_order N |} in
        resolver_run N' V token url = resolver_run N V token url).
Proof.
  split.
  - set (N := rx_env (rx_doc None (Some "https://hub")) (rx_response "u-1" "OBJ" None [200]) (map snd)).
    exists N, rx_V, rx_url, "did:x", rx_desc, "obj", (rx_doc None (Some "https://hub")), "https://hub".
    destruct (resolve_list N rx_V "" rx_url) as [vc| |] eqn:E; [|vm_compute in E; discriminate..].
    exists vc, (rx_response "u-1" "OBJ" None [200]), {| he_desc := [("objectId", JStr "OBJ")]; he_data := std_encode "{l" |}, "OBJ".
    split; [reflexivity|]. split; [apply request_of_iff; split; [vm_compute; reflexivity|exists [[("method", JStr "Other")]; rx_desc]; split; vm_compute; reflexivity]|].
    split; [reflexivity|]. split; [apply hub_address_iff; vm_compute; reflexivity|]. split; [reflexivity|]. split; [reflexivity|].
    split; [apply (first_such_find _ _ _ _ (is_entry_iff "obj")); vm_compute; reflexivity|]. split; [reflexivity|discriminate].
  - intros N V token url reqid' msgs N'. rewrite !resolver_run_spec.
    assert (H : list_bytes N' token url = list_bytes N token url); [|now rewrite H].
    unfold list_bytes. destruct (has_prefix "did:" url); [|reflexivity]. unfold resolve_did_url.
    match goal with |- (match ?a with _ => _ end) = (match ?b with _ => _ end) => assert (E : a = b) end.
    { cbn [ne_did N']. destruct (ne_did N (hd "" (split_on "?" url))) as [d| |]; [|reflexivity..]. cbn [bind].
      change (get_queries N' url) with (get_queries N url). destruct (get_queries N url) as [qs| |]; [|reflexivity..]. cbn [bind]. destruct d as [doc|]; [|reflexivity].
      change (get_request N' (dd_id doc) "CollectionsQuery" qs) with (get_request N (dd_id doc) "CollectionsQuery" qs).
      assert (Hs : service_endpoint N' doc = service_endpoint N doc).
      { unfold service_endpoint. destruct (find _ _) as [s|]; [|reflexivity]. destruct (sv_comm s); [reflexivity|]. unfold core_endpoint.
        destruct (sv_uri s); [reflexivity|]. destruct (sv_map s) as [m|]; [|reflexivity]. cbn [ne_order N'].
        induction (ne_order N m) as [|v vs IH]; [reflexivity|]. cbn [first_uri ne_core N']. destruct (ne_core N v); [reflexivity|exact IH]. }
      rewrite Hs. reflexivity. }
    rewrite E. clear E. match goal with |- (match ?b with _ => _ end) = _ => destruct b as [[obj q]| |] end; [|reflexivity..].
    change (send_request N' q 200 token) with (send_request N q 200 token). destruct (send_request N q 200 token) as [sent body]. f_equal.
    destruct body as [b| |]; [|reflexivity..]. cbn [bind ne_response N']. destruct (ne_response N b) as [r|]; [|reflexivity]. cbn [option_map].
    unfold check_status. cbn [hp_code hp_replies]. rewrite !message_data_find.
    replace (flat_map hr_entries _) with (flat_map hr_entries (hp_replies r)) by (induction (hp_replies r) as [|p l IH]; [reflexivity|]; cbn; now rewrite IH).
    replace (forallb _ (map _ (hp_replies r))) with (forallb (fun p => hr_code p =? 200) (hp_replies r)) by (induction (hp_replies r) as [|p l IH]; [reflexivity|]; cbn; now rewrite IH).
    reflexivity.
Qed.
Print Assumptions C182_binding_refuted.

(** ** C183  Which hub is asked: with a plain endpoint, or an endpoint object with one usable member, it is determined by the
    DID document.  C184 (refuted): with several usable members the choice follows Go's map iteration order. *)
Theorem C183_endpoint_unique : forall (N : nenv) (doc : did_doc) (s : service) (addr : string),
  (forall m, Permutation (ne_order N m) (map snd m)) ->
  first_such (fun s => sv_type s = "IdentityHub") (dd_services doc) s ->
  (sv_uri s = Some addr
   \/ (sv_uri s = None /\ sv_comm s = false /\ exists m v, sv_map s = Some m /\ In v (map snd m) /\ ne_core N v = Some addr
        /\ (forall v' a', In v' (map snd m) -> ne_core N v' = Some a' -> a' = addr))) ->
  forall a, hub_address N doc a <-> a = addr.
Proof.
  intros N doc s addr Hperm Hs Hd a.
  assert (Hone : hub_address N doc addr).
  { exists s. split; [assumption|]. destruct Hd as [H|(H1 & H2 & m & v & Hm & Hin & Hv & Hu)]; [now left|]. right. split; [assumption|]. split; [assumption|].
    assert (Hin' : In v (ne_order N m)) by (eapply Permutation_in; [apply Permutation_sym, Hperm|assumption]).
    assert (Hf : exists u, first_uri N (ne_order N m) = Ok u).
    { revert Hin'. generalize (ne_order N m). intros l. induction l as [|x l IH]; [intros []|]. intros [->|Hl]; cbn [first_uri]; [rewrite Hv; eauto|].
      destruct (ne_core N x); eauto. }
    destruct Hf as (u & Hf). apply first_uri_iff in Hf as (v0 & Hf & Hu0). exists m, v0. split; [assumption|]. split; [assumption|].
    rewrite Hu0. f_equal. apply (Hu v0); [|assumption]. eapply Permutation_in; [apply Hperm|].
    destruct Hf as (pre & post & -> & _). apply in_or_app. right. now left. }
  split; [intros H; now apply (hub_address_fun _ _ _ _ H Hone)|now intros ->].
Qed.
Theorem C184_endpoint_choice_refuted : exists (N1 N2 : nenv) (V : venv) (url : string),
  (forall m, Permutation (ne_order N1 m) (map snd m)) /\ (forall m, Permutation (ne_order N2 m) (map snd m))
  /\ N2 = {| ne_did := ne_did N1; ne_net := ne_net N1; ne_url := ne_url N1; ne_uuid := ne_uuid N1; ne_queries := ne_queries N1;
             ne_response := ne_response N1; ne_core := ne_core N1; ne_order := ne_order N2 |}
  /\ is_ok (resolve_list N1 V "t" url) = true /\ is_ok (resolve_list N2 V "t" url) = false
  /\ map rq_url (fst (resolver_run N1 V "t" url)) <> map rq_url (fst (resolver_run N2 V "t" url)).
Proof.
  set (doc := rx_doc (Some [("a", JStr "https://hub"); ("b", JStr "https://elsewhere")]) None).
  exists (rx_env doc (rx_response "u-1" "obj" None [200]) (map snd)), (rx_env doc (rx_response "u-1" "obj" None [200]) (fun m => rev (map snd m))), rx_V, rx_url.
  split; [intros m; apply Permutation_refl|]. split; [intros m; apply Permutation_sym, Permutation_rev|]. split; [reflexivity|].
  split; [vm_compute; reflexivity|]. split; [vm_compute; reflexivity|]. vm_compute. discriminate.
Qed.
Example C183_example :
  let N := rx_env (rx_doc (Some [("a", JNull); ("origin", JStr "https://hub")]) None) (rx_response "u-1" "obj" None [200]) (map snd) in
  (forall m, Permutation (ne_order N m) (map snd m)) /\ hub_address N (rx_doc (Some [("a", JNull); ("origin", JStr "https://hub")]) None) "https://hub"
  /\ is_ok (resolve_list N rx_V "" rx_url) = true.
Proof. cbn zeta. split; [intros m; apply Permutation_refl|]. split; [apply hub_address_iff; vm_compute; reflexivity|vm_compute; reflexivity]. Qed.
Print Assumptions C183_endpoint_unique.
Print Assumptions C184_endpoint_choice_refuted.

(** ** C185  Resolve does not panic when DID resolution delivers documents and parsing the credential does not panic.
    C186 (refuted): a resolution without a document makes it panic. *)
Lemma first_uri_np N l : first_uri N l <> Panic.
Proof. induction l as [|v l IH]; cbn; [discriminate|]. destruct (ne_core N v); [discriminate|exact IH]. Qed.
Lemma service_endpoint_np N doc : service_endpoint N doc <> Panic.
Proof.
  unfold service_endpoint, core_endpoint. destruct (find _ _) as [s|]; [|discriminate]. destruct (sv_comm s), (sv_uri s); try discriminate.
  destruct (sv_map s); [apply first_uri_np|discriminate].
Qed.
Lemma send_np N q st token : snd (send_request N q st token) <> Panic.
Proof.
  unfold send_request. cbn [snd]. destruct (ne_net N _) as [|s [b|]]; try discriminate. destruct (s =? st); discriminate.
Qed.
Theorem C185_no_panic : forall (N : nenv) (V : venv) (token url : string),
  (forall did, ne_did N did <> Panic /\ ne_did N did <> Ok None) ->
  (forall bytes, delivered N token url bytes -> parse_credential V status_opts bytes <> Panic) ->
  resolve_list N V token url <> Panic.
Proof.
  intros N V token url Hd Hv. unfold resolve_list. rewrite resolver_run_spec. cbn [snd].
  assert (Hl : snd (list_bytes N token url) <> Panic).
  { unfold list_bytes. destruct (has_prefix "did:" url).
    - unfold resolve_did_url. destruct (Hd (hd "" (split_on "?" url))) as [H1 H2].
      destruct (ne_did N (hd "" (split_on "?" url))) as [[doc|]| |]; try congruence; cbn [bind]; [|discriminate].
      destruct (get_queries N url) as [qs| |] eqn:Eq; cbn [bind]; [|discriminate|].
      + unfold get_request. rewrite first_valid_find. destruct (find is_cq qs) as [d|]; [|discriminate]. destruct (object_id d); [|discriminate]. cbn [bind fst snd].
        pose proof (service_endpoint_np N doc). destruct (service_endpoint N doc) as [addr| |]; [|discriminate|congruence]. cbn [bind].
        destruct (ne_url N addr); [|discriminate]. cbn [guard bind].
        match goal with |- context [send_request N ?q 200 token] => pose proof (send_np N q 200 token); destruct (send_request N q 200 token) as [se [b| |]] end;
          cbn [snd bind] in *; [|discriminate|congruence].
        destruct (ne_response N b) as [r|]; [|discriminate]. unfold check_status. rewrite message_data_find.
        destruct (hp_code r) as [c|]; [destruct (c =? 200); cbn [guard bind]; [|discriminate]|cbn [bind]];
          (destruct (forallb _ _); cbn [guard bind]; [|discriminate]); (destruct (find _ _); [|discriminate]); destruct (std_decode _); discriminate.
      + exfalso. revert Eq. unfold get_queries. destruct (split_on "?" url) as [|? [|q l]]; try discriminate. destruct (parse_query q); [|discriminate].
        destruct (String.eqb _ ""); cbn [negb guard bind]; [discriminate|]. destruct (std_decode _); [|discriminate]. destruct (ne_queries N _); discriminate.
    - destruct (ne_url N url); [apply send_np|discriminate]. }
  destruct (snd (list_bytes N token url)) as [b| |] eqn:E; [|discriminate|congruence]. cbn [bind]. apply Hv. now apply list_bytes_iff.
Qed.
Theorem C186_missing_document_refuted : exists (N : nenv) (V : venv) (url : string),
  ne_did N "did:x" = Ok None /\ resolve_list N V "" url = Panic.
Proof.
  exists {| ne_did := fun _ => Ok None; ne_net := rx_net; ne_url := fun _ => true; ne_uuid := ""; ne_queries := ne_queries rx_N; ne_response := ne_response rx_N;
            ne_core := ne_core rx_N; ne_order := map snd |}, rx_V, rx_url.
  split; [reflexivity|vm_compute; reflexivity].
Qed.
Example C185_example : (forall did, ne_did rx_N did <> Panic /\ ne_did rx_N did <> Ok None)
  /\ (forall bytes, delivered rx_N "" rx_url bytes -> parse_credential rx_V status_opts bytes <> Panic) /\ is_ok (resolve_list rx_N rx_V "" rx_url) = true.
Proof.
  split; [intros did; cbn; destruct (String.eqb did "did:x"); split; discriminate|]. split; [|vm_compute; reflexivity].
  intros b Hb. assert (H : delivered rx_N "" rx_url "{l") by (apply list_bytes_iff; vm_compute; reflexivity).
  rewrite (C176_one_answer _ _ _ _ _ Hb H). vm_compute. discriminate.
Qed.
Print Assumptions C185_no_panic.
Print Assumptions C186_missing_document_refuted.
