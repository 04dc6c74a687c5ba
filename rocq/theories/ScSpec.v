(** The schema cache as its users see it. *)
From Verif Require Import GoBase StatusModel ScModel.

(** what is remembered of an address: the last schema stored and when *)
Definition memory := string -> option (string * Z).
Definition remember (m : memory) (url v : string) (t : Z) : memory := fun k => if String.eqb k url then Some (v, t) else m k.
(** a schema stored at [t0] is good for the lifetime, in whole seconds *)
Definition good (life t0 t : Z) : Prop := unix t <= unix (t0 + life).
(** answers to a sequence of calls: a remembered schema that is still good; otherwise what the server delivers, which is remembered *)
Inductive answered (life : Z) : memory -> list call -> list (res string * bool) -> Prop :=
| an_nil m : answered life m [] []
| an_good m c l v t0 rs : m (ca_url c) = Some (v, t0) -> good life t0 (ca_t1 c) -> answered life m l rs -> answered life m (c :: l) ((Ok v, false) :: rs)
| an_load m c l v rs : (forall v0 t0, m (ca_url c) = Some (v0, t0) -> ~ good life t0 (ca_t1 c)) -> ca_answer c = Answer 200 (Ok v) ->
    answered life (remember m (ca_url c) v (ca_t2 c)) l rs -> answered life m (c :: l) ((Ok v, true) :: rs)
| an_fail m m' c l e rs : (forall v0 t0, m (ca_url c) = Some (v0, t0) -> ~ good life t0 (ca_t1 c)) -> (forall v, ca_answer c <> Answer 200 (Ok v)) ->
    (forall k, k <> ca_url c -> m' k = m k) -> m' (ca_url c) = None -> load_json_schema (ca_answer c) = e ->
    answered life m' l rs -> answered life m (c :: l) ((e, true) :: rs).
(** the expiry second fits an int64 *)
Definition fits (life t : Z) : Prop := - 2 ^ 63 <= unix (t + life) < 2 ^ 63.
