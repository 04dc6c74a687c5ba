(** Model of legacy/mem/mem.go.  Values are immutable: a caller that keeps and changes the slice it stored, or the one it
    got, is not modelled (Put and Get do not copy). *)
From Verif Require Import GoBase StrLemmas MemSpec.
From Coq Require Import Permutation.

(** mem.go:174-182 the tag check of Put *)
Definition has_colon (s : string) : bool := negb (Nat.eqb (List.length (split_on ":" s)) 1).
Definition tag_bad (t : tag) : bool := has_colon (t_name t) || has_colon (t_value t).
(** strings.Split(expression, "&&") *)
Fixpoint split_and (s : string) : list string :=
  match s with
  | "" => [""]
  | String c s' =>
      match s' with
      | String c' s'' =>
          if Ascii.eqb c "&" && Ascii.eqb c' "&" then "" :: split_and s''
          else match split_and s' with p :: l => String c p :: l | [] => [String c ""] end
      | "" => [String c ""]
      end
  end.
(** mem.go:282-303 the two accepted forms *)
Definition parse_conj (t : string) : option conj :=
  match split_on ":" t with
  | [n] => Some (n, "")
  | [n; v] => Some (n, v)
  | _ => None
  end.
(** mem.go:378-392 the tag test *)
Definition tag_matches (c : conj) (t : tag) : bool :=
  String.eqb (t_name t) (fst c) && (String.eqb (snd c) "" || String.eqb (t_value t) (snd c)).
Definition entry_matches (c : conj) (e : entry) : bool := existsb (tag_matches c) (e_tags e).
(** mem.go:476-503 commonDBEntries; [ord] is the (random) order in which the results are visited *)
Definition qresults := gomap (list (string * entry)).
Definition count_keys (ord : qresults) : gomap nat :=
  fold_left (fun m r => fold_left (fun m x => mset m (fst x) (S (match mget m (fst x) with Some n => n | None => 0%nat end))) (snd r) m) ord [].
Definition value_map (ord : qresults) : gomap entry :=
  fold_left (fun m r => fold_left (fun m x => mset m (fst x) (snd x)) (snd r) m) ord [].
Definition common (ord : qresults) : list (string * entry) :=
  flat_map (fun kn => if Nat.eqb (snd kn) (List.length ord)
                      then match mget (value_map ord) (fst kn) with Some e => [(fst kn, e)] | None => [] end
                      else []) (count_keys ord).

(** *** Calls, step by step: the lock, each access to the map inside it, and the way out *)
(** what a call has still to do inside its critical section *)
Inductive local :=
| LOne                                                        (* Put, Get, GetTags, Delete: one access *)
| LBatch (rem : list bop)                                     (* mem.go:339-350 *)
| LBulk (rem : list string) (acc : list (option string))      (* mem.go:251-253 *)
| LQuery (c : conj) (todo : list string) (fnd : list (string * entry)) (res : qresults) (rest : list string). (* mem.go:378-388 *)
Inductive pc :=
| CStart | CWait (l : local) | CIn (l : local) | COut (r : result)
| CNext (res : qresults) (rest : list string)                 (* end of one pass of Query, before RUnlock *)
| CRet (r : result) | CDone.
Definition writes (o : op) : bool := match o with OPut _ _ _ | ODelete _ | OBatch _ => true | _ => false end.
(** the checks before the lock is taken: mem.go:165-183 Put, 197-200 Get, 216-219 GetTags, 235-244 GetBulk,
    310-313 Delete, 324-327 Batch *)
Definition start_pc (o : op) : pc :=
  match o with
  | OPut k v ts =>
      if String.eqb k "" then CRet (RErr "key cannot be empty") else
      match v with
      | None => CRet (RErr "value cannot be nil")
      | Some _ => if existsb tag_bad ts then CRet (RErr "invalid tag") else CWait LOne
      end
  | OGet k | OGetTags k | ODelete k => if String.eqb k "" then CRet (RErr "key cannot be empty") else CWait LOne
  | OGetBulk ks =>
      match ks with
      | [] => CRet (RErr "keys slice must contain at least one key")
      | _ => if str_in "" ks then CRet (RErr "key cannot be empty") else CWait (LBulk ks [])
      end
  | OBatch l => match l with [] => CRet (RErr "batch requires at least one operation") | _ => CWait (LBatch l) end
  | OQuery _ _ => CStart
  end.
(** one turn of the loop of Query, mem.go:282-307: parse the next conjunct, or, after the last, build the iterator
    (local work, done together with the preceding unlock) *)
Inductive query_next : qresults -> list string -> pc -> Prop :=
| qn_bad res t rest : parse_conj t = None -> query_next res (t :: rest) (CRet (RErr "invalid expression format"))
| qn_one res t rest c : parse_conj t = Some c -> query_next res (t :: rest) (CWait (LQuery c [] [] res rest))
| qn_done res ord p : Permutation ord res -> Permutation p (common ord) -> query_next res [] (CRet (RIter p)).
(** mem.go:270-280 *)
Inductive query_start : string -> bool -> pc -> Prop :=
| qs_opts expr : query_start expr false (CRet (RErr "unsupported query option"))
| qs_empty : query_start "" true (CRet (RErr "invalid expression format"))
| qs_go expr p : expr <> "" -> query_next [] (split_and expr) p -> query_start expr true p.

Record mstate := { ms_map : gomap entry; ms_w : bool; ms_r : nat; ms_calls : list (op * pc); ms_hist : list event }.
Definition upd (s : mstate) (i : nat) (o : op) (p : pc) (m : gomap entry) (w : bool) (r : nat) : mstate :=
  {| ms_map := m; ms_w := w; ms_r := r; ms_calls := (firstn i (ms_calls s) ++ (o, p) :: skipn (S i) (ms_calls s))%list;
     ms_hist := ms_hist s |}.
Definition at_pc (s : mstate) (i : nat) (o : op) (p : pc) : Prop := nth_error (ms_calls s) i = Some (o, p).
(** entering a critical section: Query ranges over the map in any order *)
Inductive enter (m : gomap entry) : local -> local -> Prop :=
| en_one : enter m LOne LOne
| en_batch l : enter m (LBatch l) (LBatch l)
| en_bulk ks acc : enter m (LBulk ks acc) (LBulk ks acc)
| en_query c res rest todo : Permutation todo (map fst m) -> enter m (LQuery c [] [] res rest) (LQuery c todo [] res rest).
(** one access to the map *)
Inductive access : op -> gomap entry -> local -> gomap entry -> pc -> Prop :=
| ac_put k v ts m : access (OPut k (Some v) ts) m LOne (mset m k {| e_value := v; e_tags := ts |}) (COut RUnit)
| ac_delete k m : access (ODelete k) m LOne (mdel m k) (COut RUnit)
| ac_get k m : access (OGet k) m LOne m
    (COut (match mget m k with Some e => RVal (e_value e) | None => RErr "data not found" end))
| ac_tags k m : access (OGetTags k) m LOne m
    (COut (match mget m k with Some e => RTags (e_tags e) | None => RErr "data not found" end))
| ac_batch_key l m : str_in "" (map b_key l) = true -> access (OBatch l) m (LBatch l) m (COut (RErr "key cannot be empty"))
| ac_batch_del l b rem m : str_in "" (map b_key l) = false -> b_value b = None ->
    access (OBatch l) m (LBatch (b :: rem)) (mdel m (b_key b)) (CIn (LBatch rem))
| ac_batch_put l b rem v m : str_in "" (map b_key l) = false -> b_value b = Some v ->
    access (OBatch l) m (LBatch (b :: rem)) (mset m (b_key b) {| e_value := v; e_tags := b_tags b |}) (CIn (LBatch rem))
| ac_batch_end l m : str_in "" (map b_key l) = false -> access (OBatch l) m (LBatch []) m (COut RUnit)
| ac_bulk ks k rem acc m :
    access (OGetBulk ks) m (LBulk (k :: rem) acc) m (CIn (LBulk rem (acc ++ [option_map e_value (mget m k)])%list))
| ac_bulk_end ks acc m : access (OGetBulk ks) m (LBulk [] acc) m (COut (RVals acc))
| ac_query ex pl c k todo fnd res rest m :
    access (OQuery ex pl) m (LQuery c (k :: todo) fnd res rest) m
      (CIn (LQuery c todo (match mget m k with
                           | Some e => if entry_matches c e then (fnd ++ [(k, e)])%list else fnd
                           | None => fnd
                           end) res rest))
| ac_query_end ex pl c fnd res rest m :
    access (OQuery ex pl) m (LQuery c [] fnd res rest) m (CNext (mset res (fst c) fnd) rest).
Inductive mstep (s : mstate) : mstate -> Prop :=
| ms_call o : mstep s {| ms_map := ms_map s; ms_w := ms_w s; ms_r := ms_r s; ms_calls := (ms_calls s ++ [(o, start_pc o)])%list;
                         ms_hist := (ms_hist s ++ [Call (List.length (ms_calls s)) o])%list |}
| ms_query i ex pl p : at_pc s i (OQuery ex pl) CStart -> query_start ex pl p ->
    mstep s (upd s i (OQuery ex pl) p (ms_map s) (ms_w s) (ms_r s))
| ms_lock i o l l' : at_pc s i o (CWait l) -> writes o = true -> ms_w s = false -> ms_r s = 0%nat -> enter (ms_map s) l l' ->
    mstep s (upd s i o (CIn l') (ms_map s) true 0)
| ms_rlock i o l l' : at_pc s i o (CWait l) -> writes o = false -> ms_w s = false -> enter (ms_map s) l l' ->
    mstep s (upd s i o (CIn l') (ms_map s) false (S (ms_r s)))
| ms_access i o l m p : at_pc s i o (CIn l) -> access o (ms_map s) l m p -> mstep s (upd s i o p m (ms_w s) (ms_r s))
| ms_unlock i o r : at_pc s i o (COut r) -> writes o = true -> mstep s (upd s i o (CRet r) (ms_map s) false (ms_r s))
| ms_runlock i o r : at_pc s i o (COut r) -> writes o = false ->
    mstep s (upd s i o (CRet r) (ms_map s) (ms_w s) (pred (ms_r s)))
| ms_next i o res rest p : at_pc s i o (CNext res rest) -> query_next res rest p ->
    mstep s (upd s i o p (ms_map s) (ms_w s) (pred (ms_r s)))
| ms_ret i o r : at_pc s i o (CRet r) ->
    mstep s {| ms_map := ms_map s; ms_w := ms_w s; ms_r := ms_r s;
               ms_calls := (firstn i (ms_calls s) ++ (o, CDone) :: skipn (S i) (ms_calls s))%list;
               ms_hist := (ms_hist s ++ [Ret i r])%list |}.
Inductive mrun (s : mstate) : mstate -> Prop :=
| mr_refl : mrun s s
| mr_step t u : mrun s t -> mstep t u -> mrun s u.
Definition fresh (m : gomap entry) : mstate := {| ms_map := m; ms_w := false; ms_r := 0; ms_calls := []; ms_hist := [] |}.

(** *** The iterator, mem.go:392-449 *)
Record iter := { it_idx : nat; it_cur : string * entry; it_keys : list string; it_entries : list entry }.
Definition it_zero : string * entry := ("", {| e_value := ""; e_tags := [] |}).
Definition it_new (l : list (string * entry)) : iter :=
  {| it_idx := 0; it_cur := it_zero; it_keys := map fst l; it_entries := map snd l |}.
Definition it_next (t : iter) : res (bool * iter) :=
  if Nat.eqb (List.length (it_entries t)) (it_idx t) || Nat.eqb (List.length (it_entries t)) 0 then
    Ok (false, {| it_idx := it_idx t; it_cur := it_cur t; it_keys := it_keys t; it_entries := [] |})
  else match nth_error (it_keys t) (it_idx t), nth_error (it_entries t) (it_idx t) with
       | Some k, Some e => Ok (true, {| it_idx := S (it_idx t); it_cur := (k, e); it_keys := it_keys t; it_entries := it_entries t |})
       | _, _ => Panic
       end.
Definition it_key (t : iter) : res string := if Nat.eqb (List.length (it_entries t)) 0 then Err "iterator is exhausted" else Ok (fst (it_cur t)).
Definition it_value (t : iter) : res string :=
  if Nat.eqb (List.length (it_entries t)) 0 then Err "iterator is exhausted" else Ok (e_value (snd (it_cur t))).
Definition it_tags (t : iter) : res (list tag) :=
  if Nat.eqb (List.length (it_entries t)) 0 then Err "iterator is exhausted" else Ok (e_tags (snd (it_cur t))).
Definition it_total (t : iter) : nat := List.length (it_keys t).

(** *** The provider, mem.go:32-150.  Stores are objects; a handle keeps its store after it was removed. *)
Record pstore := { ps_name : string; ps_db : gomap entry; ps_config : list string }.
Record provider := { pv_dbs : gomap nat; pv_heap : list pstore }.
Definition pv_empty : provider := {| pv_dbs := []; pv_heap := [] |}.
(** mem.go:48-67 *)
Definition open_store (p : provider) (name : string) : res (provider * nat) :=
  if String.eqb name "" then Err "store name cannot be empty" else
  match mget (pv_dbs p) (to_lower name) with
  | Some h => Ok (p, h)
  | None => let h := List.length (pv_heap p) in
            Ok ({| pv_dbs := mset (pv_dbs p) (to_lower name) h;
                   pv_heap := (pv_heap p ++ [{| ps_name := to_lower name; ps_db := []; ps_config := [] |}])%list |}, h)
  end.
(** mem.go:141-150, 354-358 *)
Definition close_store (p : provider) (h : nat) : provider :=
  match nth_error (pv_heap p) h with
  | Some s => {| pv_dbs := mdel (pv_dbs p) (ps_name s); pv_heap := pv_heap p |}
  | None => p
  end.
(** mem.go:126-133 *)
Definition close_all (p : provider) : provider := {| pv_dbs := []; pv_heap := pv_heap p |}.
(** mem.go:72-92, 97-106 *)
Definition set_config (p : provider) (name : string) (tags : list string) : res provider :=
  if existsb has_colon tags then Err "invalid tag name" else
  match mget (pv_dbs p) (to_lower name) with
  | None => Err "store not found"
  | Some h => match nth_error (pv_heap p) h with
              | None => Panic
              | Some s => Ok {| pv_dbs := pv_dbs p;
                                pv_heap := (firstn h (pv_heap p) ++ {| ps_name := ps_name s; ps_db := ps_db s; ps_config := tags |}
                                            :: skipn (S h) (pv_heap p))%list |}
              end
  end.
Definition get_config (p : provider) (name : string) : res (list string) :=
  match mget (pv_dbs p) (to_lower name) with
  | None => Err "store not found"
  | Some h => match nth_error (pv_heap p) h with Some s => Ok (ps_config s) | None => Panic end
  end.
(** an operation through a handle (any of the calls above, run alone) *)
Definition set_db (p : provider) (h : nat) (m : gomap entry) : provider :=
  match nth_error (pv_heap p) h with
  | Some s => {| pv_dbs := pv_dbs p;
                 pv_heap := (firstn h (pv_heap p) ++ {| ps_name := ps_name s; ps_db := m; ps_config := ps_config s |}
                             :: skipn (S h) (pv_heap p))%list |}
  | None => p
  end.
