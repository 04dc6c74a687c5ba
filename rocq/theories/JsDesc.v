(** Describing schemas by predicates, compositionally. *)
From Verif Require Import GoBase StatusModel SdSpec JsModel JsSpec JsProofs.

Ltac kws := unfold kw_type, kw_const, kw_enum, kw_string, kw_number, kw_comb, kw_array, kw_object, at_least;
  cbn [mget String.eqb Ascii.eqb Bool.eqb obj_members is_type andb orb existsb forallb negb].
Ltac jst := rewrite ev_S; kws; rewrite ?andb_true_r, ?andb_true_l, ?orb_false_r.
Ltac nope := split; [let H := fresh in intros H; discriminate H|
  let H := fresh in intros H; (discriminate H || (unfold is_str, is_obj, uri, date_time, object, array, one_of, typed, or_null, text_matching in H; firstorder discriminate))].
Ltac nodups := repeat (constructor; [cbn; intuition discriminate|]); constructor.

Ltac start n d Hw := let Hn := fresh "Hn" in intros n d Hn Hw; destruct n as [|n]; [lia|]; apply le_S_n in Hn.
Ltac start0 n d Hw := let Hn := fresh "Hn" in intros n d Hn Hw; destruct n as [|n]; [lia|]; clear Hn.

Section Desc.
  Variable re fmt : string -> string -> bool.
  Variable ext : string -> json -> bool.
  Variable root : json.
  Notation ev := (ev re fmt ext root).
  (** with at least [k] units of fuel, the schema accepts exactly the documents with the property *)
  Definition Desc (k : nat) (s : json) (P : json -> Prop) : Prop := forall n d, (k <= n)%nat -> wf_json d -> ev n s d = true <-> P d.
  Lemma desc_weak k k' s P : Desc k s P -> (k <= k')%nat -> Desc k' s P.
  Proof. intros H L n d Hn Hw. apply H; [lia|assumption]. Qed.
  Lemma desc_iff k s P Q : Desc k s P -> (forall d, wf_json d -> P d <-> Q d) -> Desc k s Q.
  Proof. intros H E n d Hn Hw. rewrite <- (E d Hw). now apply H. Qed.
  Lemma desc_true : Desc 1 (JBool true) (fun _ => True).
  Proof. start0 n d Hw. cbn. tauto. Qed.
  Lemma desc_str : Desc 1 (JObj [("type", JStr "string")]) is_str.
  Proof. start0 n d Hw. jst. destruct d; try nope. split; [now eexists|reflexivity]. Qed.
  Lemma desc_null : Desc 1 (JObj [("type", JStr "null")]) (eq JNull).
  Proof. start0 n d Hw. jst. destruct d; try nope. split; reflexivity. Qed.
  Lemma desc_anyarr : Desc 1 (JObj [("type", JStr "array")]) (array (fun _ => True)).
  Proof. start0 n d Hw. jst. destruct d; try nope. split; [now eexists|reflexivity]. Qed.
  Lemma desc_anyobj : Desc 1 (JObj [("type", JStr "object")]) is_obj.
  Proof. start0 n d Hw. jst. destruct d; try nope. split; [now eexists|]. intros _. cbn. apply forallb_forall. intros x _. reflexivity. Qed.
  Lemma desc_uri : Desc 1 (JObj [("type", JStr "string"); ("format", JStr "uri")]) (uri fmt).
  Proof. start0 n d Hw. jst. destruct d; try nope. kws. rewrite ?andb_true_r. split; [intros H; now eexists|intros (x & E & H); congruence]. Qed.
  Lemma desc_date : Desc 1 (JObj [("type", JStr "string"); ("format", JStr "date-time")]) (date_time fmt).
  Proof. start0 n d Hw. jst. destruct d; try nope. kws. rewrite ?andb_true_r. split; [intros H; now eexists|intros (x & E & H); congruence]. Qed.
  Lemma desc_date_null : Desc 1 (JObj [("type", JArr [JStr "string"; JStr "null"]); ("format", JStr "date-time")]) (or_null (date_time fmt)).
  Proof.
    start0 n d Hw. jst. destruct d; try nope; kws; rewrite ?andb_true_r.
    - split; [now left|reflexivity].
    - split; [intros H; right; now eexists|intros [H|(x & E & H)]; congruence].
  Qed.
  Lemma desc_pattern p : literals (split_on "|" p) = None -> Desc 1 (JObj [("type", JStr "string"); ("pattern", JStr p)]) (text_matching re p).
  Proof.
    intros Hp. start0 n d Hw. jst. destruct d; try nope. kws. rewrite ?andb_true_r. unfold matches. rewrite Hp.
    split; [intros H; now eexists|intros (x & E & H); congruence].
  Qed.
  Lemma matches_lit p x s : literals (split_on "|" p) = Some [x] -> matches re p s = String.eqb s x.
  Proof. unfold matches. intros ->. cbn. apply orb_false_r. Qed.
  Lemma desc_lit p x : literals (split_on "|" p) = Some [x] -> Desc 1 (JObj [("type", JStr "string"); ("pattern", JStr p)]) (eq (JStr x)).
  Proof.
    intros Hp. start0 n d Hw. jst. destruct d; try nope. kws. rewrite ?andb_true_r, (matches_lit _ _ _ Hp), String.eqb_eq. split; congruence.
  Qed.
  Lemma desc_const x : Desc 1 (JObj [("type", JStr "string"); ("const", JStr x)]) (eq (JStr x)).
  Proof. start0 n d Hw. jst. destruct d; try nope. kws. rewrite ?andb_true_r, jsame_str. split; congruence. Qed.
  Lemma desc_enum xs : Desc 1 (JObj [("type", JStr "string"); ("enum", JArr (map JStr xs))]) (one_of xs).
  Proof.
    start0 n d Hw. jst. destruct d; try nope. kws. rewrite ?andb_true_r, existsb_exists. unfold one_of. split.
    - intros (c & Hc & H). apply in_map_iff in Hc as (x & <- & Hx). apply jsame_str in H. injection H as ->. eauto.
    - intros (x & E & Hx). injection E as ->. exists (JStr x). split; [now apply in_map|now apply jsame_str].
  Qed.
  Lemma desc_ref k r s P : resolve root r = Some s -> Desc k s P -> Desc (S k) (JObj [("$ref", JStr r)]) P.
  Proof.
    intros Hr H. start n d Hw. rewrite ev_S. cbn [mget String.eqb Ascii.eqb Bool.eqb]. rewrite Hr. now apply H.
  Qed.
  Lemma ev_open n d : match d with JObj m => forallb (fun kv => member_ok re (ev n) [] [] None (fst kv) (snd kv)) m | _ => true end = true.
  Proof. destruct d; try reflexivity. apply forallb_forall. intros x _. reflexivity. Qed.
  Lemma desc_const' x : Desc 1 (JObj [("const", JStr x)]) (eq (JStr x)).
  Proof.
    start0 n d Hw. jst. pose proof (ev_open n d) as Ho. transitivity (jsame (JStr x) d = true); [|rewrite jsame_str; split; congruence].
    destruct d; rewrite ?andb_true_r; try reflexivity; cbn in *; rewrite ?Ho, ?andb_true_r; reflexivity.
  Qed.
  Lemma ev_any n d l : ev (S n) (JObj [("anyOf", JArr l)]) d = existsb (fun s => ev n s d) l.
  Proof.
    jst. pose proof (ev_open n d) as Ho. destruct d; rewrite ?andb_true_r; try reflexivity. cbn in *. now rewrite Ho, andb_true_r.
  Qed.
  Lemma desc_any k ss Ps : Forall2 (Desc k) ss Ps -> Desc (S k) (JObj [("anyOf", JArr ss)]) (fun d => Exists (fun P => P d) Ps).
  Proof.
    intros H. start n d Hw. rewrite ev_any. induction H as [|s P ss Ps Hs H IH]; cbn; [split; [discriminate|intros X; inversion X]|].
    rewrite orb_true_iff, Exists_cons, IH, (Hs n d Hn Hw). reflexivity.
  Qed.
  Lemma ev_one n d l : ev (S n) (JObj [("oneOf", JArr l)]) d = Nat.eqb (count_valid (ev n) l d) 1.
  Proof.
    jst. pose proof (ev_open n d) as Ho. destruct d; rewrite ?andb_true_r; try reflexivity. cbn in *. now rewrite Ho, andb_true_r.
  Qed.
  (** alternatives that exclude each other *)
  Lemma desc_one2 k a b P Q : Desc k a P -> Desc k b Q -> (forall d, P d -> Q d -> False) -> Desc (S k) (JObj [("oneOf", JArr [a; b])]) (fun d => P d \/ Q d).
  Proof.
    intros Ha Hb Hx. start n d Hw. rewrite ev_one. cbn [count_valid]. specialize (Ha n d Hn Hw). specialize (Hb n d Hn Hw). specialize (Hx d).
    destruct (ev n a d), (ev n b d); cbn; intuition congruence.
  Qed.
  Lemma array_iff (P Q : list json -> Prop) d : (forall l, d = JArr l -> P l <-> Q l) -> array P d <-> array Q d.
  Proof. intros H. unfold array. split; intros (l & E & G); exists l; (split; [assumption|]); now apply (H l E). Qed.
  Lemma forallb_desc k n s P l : Desc k s P -> (k <= n)%nat -> wf_json (JArr l) -> forallb (ev n s) l = true <-> each P l.
  Proof. intros H Hn Hw. apply forallb_each. intros x Hx. apply H; [assumption|]. apply wf_arr in Hw. rewrite Forall_forall in Hw. auto. Qed.
  Lemma existsb_desc k n s P l : Desc k s P -> (k <= n)%nat -> wf_json (JArr l) -> existsb (ev n s) l = true <-> some P l.
  Proof. intros H Hn Hw. apply existsb_some. intros x Hx. apply H; [assumption|]. apply wf_arr in Hw. rewrite Forall_forall in Hw. auto. Qed.
  Lemma desc_items k s P : Desc k (JObj s) P -> Desc (S k) (JObj [("type", JStr "array"); ("items", JObj s)]) (array (each P)).
  Proof.
    intros H. start n d Hw. jst. destruct d as [| | | |l|]; try nope. kws. rewrite ?andb_true_r, (forallb_desc k n _ P l H Hn Hw).
    split; [intros G; now exists l|intros (x & E & G); injection E as <-; assumption].
  Qed.
  Lemma at_least_1 {A} (l : list A) : Qle_bool (inject_Z 1) (inject_Z (Z.of_nat (List.length l))) = true <-> l <> [].
  Proof. rewrite Qle_bool_iff. unfold Qle. cbn. destruct l; cbn; split; try congruence; lia. Qed.
  Lemma desc_items1 k s P : Desc k (JObj s) P ->
    Desc (S k) (JObj [("type", JStr "array"); ("items", JObj s); ("minItems", jnum 1)]) (array (nonempty (each P))).
  Proof.
    intros H. start n d Hw. jst. destruct d as [| | | |l|]; try nope. kws. change (jnum 1) with (JNum (inject_Z 1)). cbv iota.
    rewrite ?andb_true_r, andb_true_iff, at_least_1, (forallb_desc k n _ P l H Hn Hw). unfold nonempty.
    split; [intros [G1 G2]; now exists l|intros (x & E & G1 & G2); injection E as <-; auto].
  Qed.
  Lemma desc_items1' k s P : Desc k (JObj s) P ->
    Desc (S k) (JObj [("type", JStr "array"); ("minItems", jnum 1); ("items", JObj s)]) (array (nonempty (each P))).
  Proof.
    intros H. start n d Hw. jst. destruct d as [| | | |l|]; try nope. kws. change (jnum 1) with (JNum (inject_Z 1)). cbv iota.
    rewrite ?andb_true_r, andb_true_iff, at_least_1, (forallb_desc k n _ P l H Hn Hw). unfold nonempty.
    split; [intros [G1 G2]; now exists l|intros (x & E & G1 & G2); injection E as <-; auto].
  Qed.
  Lemma desc_min1 : Desc 1 (JObj [("type", JStr "array"); ("minItems", jnum 1)]) (array (nonempty (fun _ => True))).
  Proof.
    start0 n d Hw. jst. destruct d as [| | | |l|]; try nope. kws. change (jnum 1) with (JNum (inject_Z 1)). cbv iota.
    rewrite ?andb_true_r, at_least_1. unfold nonempty. split; [intros G1; now exists l|intros (x & E & G1 & G2); injection E as <-; auto].
  Qed.
  (** arrays with an entry as described *)
  Lemma desc_contains k s P t : Desc k s P -> t = [("type", JStr "array"); ("contains", s)] -> Desc (S k) (JObj t) (array (some P)).
  Proof.
    intros H ->. start n d Hw. jst. destruct d as [| | | |l|]; try nope. kws. rewrite ?andb_true_r, (existsb_desc k n _ P l H Hn Hw).
    split; [intros G; now exists l|intros (x & E & G); injection E as <-; auto].
  Qed.
  Lemma some_nonempty P l : some P l -> l <> [].
  Proof. intros (x & Hx & _) ->. destruct Hx. Qed.
  Lemma desc_contains1 k s P t : Desc k s P ->
    t = [("type", JStr "array"); ("minItems", jnum 1); ("contains", s)] \/ t = [("type", JStr "array"); ("contains", s); ("minItems", jnum 1)] ->
    Desc (S k) (JObj t) (array (some P)).
  Proof.
    intros H Ht. start n d Hw. destruct Ht as [->| ->]; jst; (destruct d as [| | | |l|]; try nope); kws; change (jnum 1) with (JNum (inject_Z 1)); cbv iota;
      rewrite ?andb_true_r, andb_true_iff, at_least_1, (existsb_desc k n _ P l H Hn Hw);
      (split; [intros [G _]; now exists l|intros (x & E & G); injection E as <-; split; [assumption|now apply some_nonempty in G]]).
  Qed.
  Lemma some_eq x l : some (eq x) l <-> In x l.
  Proof. unfold some. split; [intros (y & H & <-); assumption|eauto]. Qed.
  Lemma desc_typed_by k x a b t : Desc k a (array (In (JStr x))) -> Desc k b (eq (JStr x)) -> t = [("oneOf", JArr [a; b])] -> Desc (S k) (JObj t) (typed x).
  Proof.
    intros Ha Hb ->. eapply desc_iff; [apply (desc_one2 k a b _ _ Ha Hb)|].
    - intros d (l & -> & _) E. discriminate.
    - intros d _. unfold typed. split; intros [G|G]; auto.
  Qed.

  (** ** Objects *)
  Fixpoint members (fs : list (string * (json -> Prop))) (m : gomap json) : Prop :=
    match fs with [] => True | f :: r => member m (fst f) (snd f) /\ members r m end.
  Lemma members_iff k n props fs m : (k <= n)%nat -> wf_json (JObj m) -> Forall2 (fun p f => fst p = fst f /\ Desc k (snd p) (snd f)) props fs ->
    Forall (fun p => member m (fst p) (fun x => ev n (snd p) x = true)) props <-> members fs m.
  Proof.
    intros Hn Hw H. induction H as [|p f props fs [E Hd] H IH]; cbn; [split; auto|]. rewrite Forall_cons_iff, IH, E.
    apply and_iff_compat_r. apply member_iff. intros x Hx. apply Hd; [assumption|]. eapply wf_mget; eauto.
  Qed.
  (** a schema that only has keywords about objects *)
  Definition plain_object (s : gomap json) (ks : list string) (props : gomap json) (add : option json) : Prop :=
    mget s "$ref" = None /\ mget s "type" = Some (JStr "object") /\ mget s "const" = None /\ mget s "enum" = None /\ mget s "anyOf" = None
    /\ mget s "oneOf" = None /\ mget s "minProperties" = None /\ mget s "patternProperties" = None /\ mget s "additionalProperties" = add
    /\ obj_members (mget s "properties") = props
    /\ (mget s "required" = Some (JArr (map JStr ks)) \/ (mget s "required" = None /\ ks = [])).
  Lemma required_keys m ks : forallb (fun k => match k with JStr k => mhas m k | _ => false end) (map JStr ks) = true <-> (forall k, In k ks -> has m k).
  Proof.
    rewrite forallb_forall. split.
    - intros H k Hk. apply mhas_has. apply (H (JStr k)). now apply in_map.
    - intros H k Hk. apply in_map_iff in Hk as (k' & <- & Hk). now apply mhas_has, H.
  Qed.
  Lemma ev_plain n s ks props add d : plain_object s ks props add -> ev (S n) (JObj s) d = true <->
    object (fun m => (forall k, In k ks -> has m k) /\ forallb (fun kv => member_ok re (ev n) props [] add (fst kv) (snd kv)) m = true) d.
  Proof.
    intros (H1 & H2 & H3 & H4 & H5 & H6 & H7 & H8 & H9 & H10 & H11). rewrite ev_S, H1. kws. rewrite H2, H3, H4, H5, H6. unfold object.
    destruct d as [| | | | |m]; try (split; [discriminate|intros (m & E & _); discriminate]).
    cbn [is_type String.eqb Ascii.eqb Bool.eqb andb]. rewrite H7, H8, H9, H10. cbn [andb obj_members].
    assert (E : match mget s "required" with
      | Some (JArr ks) => forallb (fun k => match k with JStr k => mhas m k | _ => false end) ks
      | Some _ => false | None => true end = true <-> (forall k, In k ks -> has m k)).
    { destruct H11 as [->|[-> ->]]; [apply required_keys|]. split; [intros _ k []|reflexivity]. }
    rewrite andb_true_r, andb_true_iff, E. split; [intros G; exists m; split; [reflexivity|assumption]|intros (m' & X & G); injection X as <-; assumption].
  Qed.
  (** a document that is an object, at the top *)
  Definition top_object (s : gomap json) (ks : list string) (props : gomap json) (add : option json) : Prop :=
    mget s "$ref" = None /\ (mget s "type" = Some (JStr "object") \/ mget s "type" = None) /\ mget s "const" = None /\ mget s "enum" = None /\ mget s "anyOf" = None
    /\ mget s "oneOf" = None /\ mget s "minProperties" = None /\ mget s "patternProperties" = None /\ mget s "additionalProperties" = add
    /\ obj_members (mget s "properties") = props
    /\ (mget s "required" = Some (JArr (map JStr ks)) \/ (mget s "required" = None /\ ks = [])).
  Lemma ev_top n s ks props add m : top_object s ks props add -> ev (S n) (JObj s) (JObj m) = true <->
    (forall k, In k ks -> has m k) /\ forallb (fun kv => member_ok re (ev n) props [] add (fst kv) (snd kv)) m = true.
  Proof.
    intros (H1 & H2 & H3 & H4 & H5 & H6 & H7 & H8 & H9 & H10 & H11). rewrite ev_S, H1. kws. rewrite H3, H4, H5, H6.
    replace (match mget s "type" with None => true | Some (JStr t) => is_type t (JObj m) | Some (JArr ts) => _ | Some _ => false end) with true
      by (destruct H2 as [->| ->]; reflexivity).
    cbn [andb]. rewrite H7, H8, H9, H10. cbn [andb obj_members].
    assert (E : match mget s "required" with
      | Some (JArr ks) => forallb (fun k => match k with JStr k => mhas m k | _ => false end) ks
      | Some _ => false | None => true end = true <-> (forall k, In k ks -> has m k)).
    { destruct H11 as [->|[-> ->]]; [apply required_keys|]. split; [intros _ k []|reflexivity]. }
    rewrite andb_true_r, andb_true_iff, E. reflexivity.
  Qed.
  Lemma top_members k n s ks props fs add m : top_object s ks props add -> add = None \/ add = Some (JBool true) -> NoDup (map fst props) ->
    Forall2 (fun p f => fst p = fst f /\ Desc (S k) (snd p) (snd f)) props fs -> (S k <= n)%nat -> wf_json (JObj m) ->
    ev (S n) (JObj s) (JObj m) = true <-> (forall k, In k ks -> has m k) /\ members fs m.
  Proof.
    intros Hs Ha Hp Hf Hn Hw. rewrite (ev_top n s ks props add m Hs). apply and_iff_compat_l.
    rewrite (open_members re (ev n) props m (proj1 (proj1 (wf_obj m) Hw)) Hp add).
    - now apply (members_iff (S k)).
    - destruct Ha as [->| ->]; [now left|right]. split; [reflexivity|]. intros x. destruct n; [lia|]. reflexivity.
  Qed.
  Lemma object_iff (P Q : gomap json -> Prop) d : (forall m, d = JObj m -> P m <-> Q m) -> object P d <-> object Q d.
  Proof. intros H. unfold object. split; intros (m & E & G); exists m; (split; [assumption|]); now apply (H m E). Qed.
  Lemma desc_object k s ks props fs add : plain_object s ks props add -> add = None \/ add = Some (JBool true) -> NoDup (map fst props) ->
    Forall2 (fun p f => fst p = fst f /\ Desc (S k) (snd p) (snd f)) props fs ->
    Desc (S (S k)) (JObj s) (object (fun m => (forall k, In k ks -> has m k) /\ members fs m)).
  Proof.
    intros Hs Ha Hp Hf. start n d Hw. rewrite (ev_plain n s ks props add d Hs). apply object_iff. intros m ->. apply and_iff_compat_l.
    rewrite (open_members re (ev n) props m (proj1 (proj1 (wf_obj m) Hw)) Hp add).
    - now apply (members_iff (S k)).
    - destruct Ha as [->| ->]; [now left|right]. split; [reflexivity|]. intros x. destruct n; [lia|]. reflexivity.
  Qed.
  (** closed objects *)
  Lemma desc_closed k s ks props fs : plain_object s ks props (Some (JBool false)) -> NoDup (map fst props) ->
    Forall2 (fun p f => fst p = fst f /\ Desc (S k) (snd p) (snd f)) props fs ->
    Desc (S (S k)) (JObj s) (object (fun m => (forall k, In k ks -> has m k) /\ members fs m /\ (forall k, has m k -> In k (map fst fs)))).
  Proof.
    intros Hs Hp Hf. start n d Hw. rewrite (ev_plain n s ks props _ d Hs). apply object_iff. intros m ->. apply and_iff_compat_l.
    rewrite (closed_members re (ev n) props m (proj1 (proj1 (wf_obj m) Hw)) Hp).
    - rewrite (members_iff (S k) n props fs m Hn Hw Hf). replace (map fst fs) with (map fst props); [reflexivity|].
      clear -Hf. induction Hf as [|p f props fs [E _] H IH]; cbn; congruence.
    - intros x. destruct n; [lia|]. reflexivity.
  Qed.
End Desc.
