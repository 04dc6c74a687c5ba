(** Specification of the in-memory store (legacy/mem): an abstract map, what one operation may do to it, histories of
    concurrent calls, and linearizability (Herlihy and Wing). *)
From Verif Require Import GoBase StrLemmas.

Record tag := { t_name : string; t_value : string }.
Record entry := { e_value : string; e_tags : list tag }.
(** one element of a batch; no value means delete *)
Record bop := { b_key : string; b_value : option string; b_tags : list tag }.
(** calls; [None] is a nil value; [plain]: no page number or sort order asked for *)
Inductive op :=
| OPut (k : string) (v : option string) (ts : list tag)
| OGet (k : string) | OGetTags (k : string) | OGetBulk (ks : list string)
| ODelete (k : string) | OBatch (l : list bop) | OQuery (expr : string) (plain : bool).
(** answers; [RIter]: what the iterator returned will produce *)
Inductive result :=
| RErr (e : string) | RUnit | RVal (v : string) | RTags (ts : list tag) | RVals (vs : list (option string))
| RIter (l : list (string * entry)).

Definition db := string -> option entry.
Definition same (A B : db) : Prop := forall k, A k = B k.
Definition updated (A : db) (k : string) (e : option entry) (B : db) : Prop :=
  forall x, B x = if String.eqb x k then e else A x.
(** the effect of a batch, element by element *)
Inductive batched : db -> list bop -> db -> Prop :=
| bt_nil A B : same A B -> batched A [] B
| bt_cons A b B l C : updated A (b_key b) (option_map (fun v => {| e_value := v; e_tags := b_tags b |}) (b_value b)) B ->
    batched B l C -> batched A (b :: l) C.
Definition tag_fine (t : tag) : Prop := free_of ":" (t_name t) /\ free_of ":" (t_value t).
(** *** Queries: "name" or "name:value", joined by "&&"; an empty value means any *)
Definition conj := (string * string)%type.
Definition has_tag (e : entry) (c : conj) : Prop :=
  exists t, In t (e_tags e) /\ t_name t = fst c /\ (snd c = "" \/ t_value t = snd c).
Inductive conj_text : string -> conj -> Prop :=
| ct_name n : free_of ":" n -> conj_text n (n, "")
| ct_value n v : free_of ":" n -> free_of ":" v -> conj_text (n ++ String ":" v) (n, v).
Definition query_text (expr : string) (cs : list conj) : Prop :=
  expr <> "" /\ exists ts, ts <> [] /\ Forall (free_of "&") ts /\ expr = String.concat "&&" ts /\ Forall2 conj_text ts cs.
(** exactly the entries that carry every tag asked for, each once, in any order *)
Definition found (A : db) (cs : list conj) (l : list (string * entry)) : Prop :=
  NoDup (map fst l) /\ forall k e, In (k, e) l <-> A k = Some e /\ forall c, In c cs -> has_tag e c.
(** more than one ':' *)
Definition bad_conj (t : string) : Prop := forall c, ~ conj_text t c.

(** *** One call, alone *)
Inductive seq_ok : op -> db -> result -> db -> Prop :=
| so_put k v ts A B : k <> "" -> Forall tag_fine ts -> updated A k (Some {| e_value := v; e_tags := ts |}) B ->
    seq_ok (OPut k (Some v) ts) A RUnit B
| so_put_err k v ts A B e : k = "" \/ v = None \/ ~ Forall tag_fine ts -> same A B -> seq_ok (OPut k v ts) A (RErr e) B
| so_get k A B x : k <> "" -> A k = Some x -> same A B -> seq_ok (OGet k) A (RVal (e_value x)) B
| so_get_err k A B e : k = "" \/ A k = None -> same A B -> seq_ok (OGet k) A (RErr e) B
| so_tags k A B x : k <> "" -> A k = Some x -> same A B -> seq_ok (OGetTags k) A (RTags (e_tags x)) B
| so_tags_err k A B e : k = "" \/ A k = None -> same A B -> seq_ok (OGetTags k) A (RErr e) B
| so_bulk ks A B : ks <> [] -> ~ In "" ks -> same A B ->
    seq_ok (OGetBulk ks) A (RVals (map (fun k => option_map e_value (A k)) ks)) B
| so_bulk_err ks A B e : ks = [] \/ In "" ks -> same A B -> seq_ok (OGetBulk ks) A (RErr e) B
| so_delete k A B : k <> "" -> updated A k None B -> seq_ok (ODelete k) A RUnit B
| so_delete_err A B e : same A B -> seq_ok (ODelete "") A (RErr e) B
| so_batch l A B : l <> [] -> ~ In "" (map b_key l) -> batched A l B -> seq_ok (OBatch l) A RUnit B
| so_batch_err l A B e : l = [] \/ In "" (map b_key l) -> same A B -> seq_ok (OBatch l) A (RErr e) B
| so_query expr cs A B l : query_text expr cs -> found A cs l -> same A B -> seq_ok (OQuery expr true) A (RIter l) B
| so_query_err expr pl A B e :
    expr = "" \/ pl = false \/ (exists ts t, Forall (free_of "&") ts /\ expr = String.concat "&&" ts /\ In t ts /\ bad_conj t) ->
    same A B -> seq_ok (OQuery expr pl) A (RErr e) B.

(** *** Histories *)
Inductive event := Call (i : nat) (o : op) | Ret (i : nat) (r : result).
Definition before {A} (l : list A) (x y : A) : Prop := exists a b c, l = (a ++ x :: b ++ y :: c)%list.
Inductive legal : db -> list (nat * op * result) -> db -> Prop :=
| lg_nil A B : same A B -> legal A [] B
| lg_cons A i o r B S C : seq_ok o A r B -> legal B S C -> legal A ((i, o, r) :: S) C.
Definition ident (x : nat * op * result) : nat := fst (fst x).
Definition linearizable (A : db) (h : list event) : Prop :=
  exists S B, legal A S B /\ NoDup (map ident S)
    /\ (forall i o r, In (i, o, r) S -> In (Call i o) h /\ forall r', In (Ret i r') h -> r' = r)
    /\ (forall i r, In (Ret i r) h -> exists o, In (i, o, r) S)
    /\ (forall i r j o, before h (Ret i r) (Call j o) -> In j (map ident S) -> before (map ident S) i j).
