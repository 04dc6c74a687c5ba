(** Model of the cache of credential schemas and the loading of custom schemas: verifiable/credential.go:648-760 (SchemaCache, ExpirableSchemaCache,
    CredentialSchemaLoaderBuilder), 2302-2351 (getJSONSchema, loadJSONSchema).
    Times are nanoseconds since 1970.  The underlying fastcache (VictoriaMetrics, not in the sandbox) is a map from keys to bytes that may forget an entry
    at any moment and may decline to store one (it does so with large values, keeping what it has).
    Not modelled: HTTP (requests, redirects, TLS), failures when closing a body, which are logged only. *)
From Verif Require Import GoBase StatusModel.

(** ** encoding/binary LittleEndian.PutUint64 and Uint64 for [n] bytes *)
Fixpoint le_put (n : nat) (z : Z) : string :=
  match n with O => "" | Datatypes.S n' => String (ascii_of_nat (Z.to_nat (z mod 256))) (le_put n' (z / 256)) end.
Fixpoint le_get (n : nat) (s : string) : Z :=
  match n, s with Datatypes.S n', String c s' => Z.of_nat (nat_of_ascii c) + 256 * le_get n' s' | _, _ => 0 end.
(** Go conversions between int64 and uint64 *)
Definition to_uint64 (z : Z) : Z := z mod 2 ^ 64.
Definition to_int64 (u : Z) : Z := if u <? 2 ^ 63 then u else u - 2 ^ 64.
(** time.Time.Unix *)
Definition unix (t : Z) : Z := t / 1000000000.
(** s[n:] and the test that it does not panic *)
Fixpoint str_drop (n : nat) (s : string) : option string :=
  match n, s with O, _ => Some s | Datatypes.S n', String _ s' => str_drop n' s' | Datatypes.S _, EmptyString => None end.

(** ** credential.go:726-759 ExpirableSchemaCache; [life]: the expiration of NewExpirableSchemaCache *)
Section Cache.
  Variable life : Z.
  (** 726-739 Put: the bytes that are handed to the cache *)
  Definition stamped (now : Z) (v : string) : string := le_put 8 (to_uint64 (unix (now + life))) ++ v.
  Definition cache_put (now : Z) (k v : string) (c : gomap string) : gomap string := mset c k (stamped now v).
  (** 743-759 Get: what is found, and the cache afterwards *)
  Definition cache_get (now : Z) (k : string) (c : gomap string) : res (option string * gomap string) :=
    match mget c k with
    | None => Ok (None, c)
    | Some b =>
        match str_drop 8 b with
        | None => Panic
        | Some v => if to_int64 (le_get 8 b) <? unix now then Ok (None, mdel c k) else Ok (Some v, c)
        end
    end.
  (** ** 2324-2351 loadJSONSchema; what the HTTP client reports *)
  Inductive response := NoAnswer (e : string) | Answer (status : Z) (body : res string).
  Definition load_json_schema (r : response) : res string :=
    match r with
    | NoAnswer e => Err e
    | Answer status body => if status =? 200 then body else Err "credential schema endpoint HTTP failure"
    end.
  (** 2302-2322 getJSONSchema.  [t1]: the clock when the cache is asked, [t2]: when the schema is stored; [r]: what the server answers, if asked.
      Result: the schema, whether the server was asked, the cache afterwards *)
  Definition get_json_schema (cache : option (gomap string)) (t1 t2 : Z) (url : string) (r : response) : res string * bool * option (gomap string) :=
    match cache with
    | None => (load_json_schema r, true, None)
    | Some c =>
        match cache_get t1 url c with
        | Ok (Some v, c') => (Ok v, false, Some c')
        | Ok (None, c') =>
            match load_json_schema r with
            | Ok v => (Ok v, true, Some (cache_put t2 url v c'))
            | Err e => (Err e, true, Some c')
            | Panic => (Panic, true, Some c')
            end
        | Err e => (Err e, false, Some c)
        | Panic => (Panic, false, Some c)
        end
    end.
  (** a sequence of calls on one loader *)
  Record call := { ca_url : string; ca_t1 : Z; ca_t2 : Z; ca_answer : response }.
  Fixpoint calls (cache : option (gomap string)) (l : list call) : list (res string * bool) :=
    match l with
    | [] => []
    | c :: l' => let '(r, asked, cache') := get_json_schema cache (ca_t1 c) (ca_t2 c) (ca_url c) (ca_answer c) in (r, asked) :: calls cache' l'
    end.

  (** ** Concurrent calls.  A call asks the cache, asks the server, stores the answer; the calls on one loader interleave, the clock is arbitrary *)
  Inductive thread :=
  | Want (url : string)                              (* before 2311 *)
  | Missed (url : string)                            (* before 2315 *)
  | Loaded (url v : string)                          (* before 2321 *)
  | Hit (url v : string) (at_ : Z)                   (* returned at 2312; the clock then *)
  | Fresh (url v : string)                           (* returned at 2323 *)
  | Failed (url e : string).                         (* returned at 2317 *)
  (** what happened: the server answered a request for [url] with status 200 and this body; a body was stored *)
  Inductive event := Delivered (url v : string) | Stored (url v : string) (at_ : Z).
  Record state := { st_cache : gomap string; st_threads : list thread; st_clock : Z; st_past : list event }.
  Fixpoint set_thread (l : list thread) (i : nat) (t : thread) : list thread :=
    match l, i with
    | [], _ => []
    | _ :: l', O => t :: l'
    | x :: l', Datatypes.S i' => x :: set_thread l' i' t
    end.
  Inductive step : state -> state -> Prop :=
  | st_time s t : step s {| st_cache := st_cache s; st_threads := st_threads s; st_clock := t; st_past := st_past s |}
  | st_forget s k : step s {| st_cache := mdel (st_cache s) k; st_threads := st_threads s; st_clock := st_clock s; st_past := st_past s |}
  | st_ask s i url v c : nth_error (st_threads s) i = Some (Want url) -> cache_get (st_clock s) url (st_cache s) = Ok (v, c) ->
      step s {| st_cache := c; st_threads := set_thread (st_threads s) i (match v with Some v => Hit url v (st_clock s) | None => Missed url end);
                st_clock := st_clock s; st_past := st_past s |}
  | st_load s i url r v : nth_error (st_threads s) i = Some (Missed url) -> load_json_schema r = Ok v ->
      step s {| st_cache := st_cache s; st_threads := set_thread (st_threads s) i (Loaded url v); st_clock := st_clock s; st_past := Delivered url v :: st_past s |}
  | st_fail s i url r e : nth_error (st_threads s) i = Some (Missed url) -> load_json_schema r = Err e ->
      step s {| st_cache := st_cache s; st_threads := set_thread (st_threads s) i (Failed url e); st_clock := st_clock s; st_past := st_past s |}
  | st_store s i url v : nth_error (st_threads s) i = Some (Loaded url v) ->
      step s {| st_cache := cache_put (st_clock s) url v (st_cache s); st_threads := set_thread (st_threads s) i (Fresh url v); st_clock := st_clock s;
                st_past := Stored url v (st_clock s) :: st_past s |}
  | st_decline s i url v : nth_error (st_threads s) i = Some (Loaded url v) ->
      step s {| st_cache := st_cache s; st_threads := set_thread (st_threads s) i (Fresh url v); st_clock := st_clock s; st_past := st_past s |}.
  Inductive runs : state -> state -> Prop :=
  | ru_refl s : runs s s
  | ru_step s s' s'' : runs s s' -> step s' s'' -> runs s s''.
  Definition start (urls : list string) (clock : Z) : state := {| st_cache := []; st_threads := map Want urls; st_clock := clock; st_past := [] |}.
End Cache.

(** ** credential.go:673-723 CredentialSchemaLoader and its builder; a JSON loader is a schema *)
Record loader := { lo_client : option string; lo_cached : bool; lo_json : option json }.
Definition set_json_loader (j : json) (l : loader) : loader := {| lo_client := lo_client l; lo_cached := lo_cached l; lo_json := Some j |}.
Definition set_cache (l : loader) : loader := {| lo_client := lo_client l; lo_cached := true; lo_json := lo_json l |}.
