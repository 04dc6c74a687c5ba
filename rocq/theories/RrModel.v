(** Model of verifiable/related_resource.go: RelatedResourceValidator.
    Go's goroutines are interleaved: each step below is one access to the shared cache, one HTTP exchange or one message
    to the waiting caller.  The LRU cache is a map from which entries may vanish at any time (capacity, expiry) and to
    which other concurrent uses of the same validator add. *)
From Verif Require Import GoBase JwtSpec VcSpec RrSpec.

(** related_resource.go:30-34 CachedResource, 212-222 calculateHashes *)
Record hashes := { h_256 : string; h_384 : string; h_512 : string }.
Definition calc (E : renv) (data : string) : hashes :=
  {| h_256 := re_hash E SHA256 data; h_384 := re_hash E SHA384 data; h_512 := re_hash E SHA512 data |}.
(** related_resource.go:74-105 Fetch after a cache miss: the bytes received *)
Definition body_of (a : answer) : res string :=
  match a with
  | NoAnswer => Err "fetch related resource"
  | Answer st b =>
      let* _ := guard (st =? 200) "related resource fetch failed with status code" in
      match b with
      | None => Err "empty related resource"
      | Some (Ok d) => if String.eqb d "" then Err "empty related resource" else Ok d
      | Some (Err _) => Err "read related resource"
      | Some Panic => Panic
      end
  end.
(** related_resource.go:176-210 validateHash.  [decodedDigest[0]] and [decodedDigest[1]] panic when too short. *)
Definition has_header (enc : bool) (d : string) : res bool :=
  if negb enc then Ok false else
  match d with
  | "" => Panic
  | String c d' => if negb (N.eqb (N_of_ascii c) 18) then Ok false else
                   match d' with
                   | "" => Panic
                   | String c' _ => Ok (N.eqb (N_of_ascii c') 32)
                   end
  end.
(** decodedDigest[2:] *)
Definition drop2 (d : string) : string := match d with String _ (String _ r) => r | _ => "" end.
Definition validate_hash (E : renv) (hash alg : string) (h : hashes) : res unit :=
  match re_mb E hash with
  | None => Err "decode digest"
  | Some (enc, d) =>
      let* raw := (if String.eqb (to_lower alg) "sha256" then Ok (h_256 h)
                   else if String.eqb (to_lower alg) "sha384" then Ok (h_384 h)
                   else if String.eqb (to_lower alg) "sha512" then Ok (h_512 h)
                   else Err "unsupported hash algorithm") in
      let* hd := has_header enc d in
      let d := if hd then drop2 d else d in
      guard (String.eqb raw d) "hash mismatch"
  end.
(** related_resource.go:151-174 validateSingleResource *)
Definition validate_single (E : renv) (r : relres) (h : hashes) : res unit :=
  let* ha := (if negb (String.eqb (rr_sri r) "") then
                match split_on "-" (rr_sri r) with
                | [a; d] => Ok (d, a)
                | _ => Err "invalid digest SRI format"
                end
              else if negb (String.eqb (rr_mb r) "") then Ok (rr_mb r, "sha256")
              else Ok ("", "")) in
  validate_hash E (fst ha) (snd ha) h.

(** *** Validate as a concurrent program *)
(** where a goroutine (related_resource.go:124-138) stands: before the cache lookup; before the HTTP exchange; before
    Cache.Add; before the check; finished, with what it sends to the caller *)
Inductive tstate := TStart | TFetch | TAdd (h : hashes) | THas (h : hashes) | TDone (r : res unit).
Record config := {
  cf_cache : gomap hashes;
  cf_threads : list (relres * tstate);
  cf_pos : nat;                          (* the channel the caller reads next, related_resource.go:144-146 *)
  cf_err : bool;                         (* finalErr is not nil *)
  cf_crash : bool                        (* a goroutine panicked: the process dies *)
}.
Definition set_thread (c : config) (i : nat) (t : relres * tstate) : config :=
  {| cf_cache := cf_cache c; cf_threads := (firstn i (cf_threads c) ++ t :: skipn (S i) (cf_threads c))%list;
     cf_pos := cf_pos c; cf_err := cf_err c; cf_crash := cf_crash c |}.
Definition set_cache (c : config) (m : gomap hashes) : config :=
  {| cf_cache := m; cf_threads := cf_threads c; cf_pos := cf_pos c; cf_err := cf_err c; cf_crash := cf_crash c |}.
(** steps of this call; [serve url a]: the server answers [a] to a request for [url] (at some time) *)
Inductive step (E : renv) (serve : string -> answer -> Prop) (c : config) : config -> Prop :=
| st_hit i r h : cf_crash c = false -> nth_error (cf_threads c) i = Some (r, TStart) -> mget (cf_cache c) (rr_id r) = Some h ->
    step E serve c (set_thread c i (r, THas h))
| st_miss i r : cf_crash c = false -> nth_error (cf_threads c) i = Some (r, TStart) -> mget (cf_cache c) (rr_id r) = None ->
    step E serve c (set_thread c i (r, TFetch))
| st_fail i r a e : cf_crash c = false -> nth_error (cf_threads c) i = Some (r, TFetch) -> serve (rr_id r) a -> body_of a = Err e ->
    step E serve c (set_thread c i (r, TDone (Err e)))
| st_got i r a b : cf_crash c = false -> nth_error (cf_threads c) i = Some (r, TFetch) -> serve (rr_id r) a -> body_of a = Ok b ->
    step E serve c (set_thread c i (r, TAdd (calc E b)))
| st_add i r h : cf_crash c = false -> nth_error (cf_threads c) i = Some (r, TAdd h) ->
    step E serve c (set_cache (set_thread c i (r, THas h)) (mset (cf_cache c) (rr_id r) h))
| st_check i r h : cf_crash c = false -> nth_error (cf_threads c) i = Some (r, THas h) -> validate_single E r h <> Panic ->
    step E serve c (set_thread c i (r, TDone (validate_single E r h)))
| st_crash i r h : cf_crash c = false -> nth_error (cf_threads c) i = Some (r, THas h) -> validate_single E r h = Panic ->
    step E serve c {| cf_cache := cf_cache c; cf_threads := cf_threads c; cf_pos := cf_pos c; cf_err := cf_err c; cf_crash := true |}
| st_recv r x : cf_crash c = false -> nth_error (cf_threads c) (cf_pos c) = Some (r, TDone x) ->
    step E serve c {| cf_cache := cf_cache c; cf_threads := cf_threads c; cf_pos := S (cf_pos c);
                      cf_err := cf_err c || negb (is_ok x); cf_crash := false |}.
(** steps of the rest of the process: entries vanish; another use of the validator adds one (after a successful exchange) *)
Inductive others_step (E : renv) (serve : string -> answer -> Prop) (c : config) : config -> Prop :=
| os_evict m : (forall k, mget m k = None \/ mget m k = mget (cf_cache c) k) -> others_step E serve c (set_cache c m)
| os_add u a b : serve u a -> body_of a = Ok b ->
    others_step E serve c (set_cache c (mset (cf_cache c) u (calc E b))).
(** [run c n d]: an execution from [c] to [d] with [n] steps of this call *)
Inductive run (E : renv) (serve : string -> answer -> Prop) (c : config) : nat -> config -> Prop :=
| run_refl : run E serve c 0 c
| run_step n d e : run E serve c n d -> step E serve d e -> run E serve c (S n) e
| run_other n d e : run E serve c n d -> others_step E serve d e -> run E serve c n e.
(** related_resource.go:114-142: one goroutine per related resource of every credential *)
Definition start (cache : gomap hashes) (rs : list relres) : config :=
  {| cf_cache := cache; cf_threads := map (fun r => (r, TStart)) rs; cf_pos := 0; cf_err := false; cf_crash := false |}.
(** related_resource.go:142-148: the caller has read every channel *)
Definition returned (c : config) (r : res unit) : Prop :=
  cf_crash c = false /\ cf_pos c = List.length (cf_threads c) /\ r = if cf_err c then Err "related resources" else Ok tt.
