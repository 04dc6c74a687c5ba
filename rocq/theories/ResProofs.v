(** Lemmas about the status list resolver. *)
From Verif Require Import GoBase Base64 StrLemmas JwtSpec VcSpec StatusSpec VcModel VcParse DiProofs JwtProofs ResSpec ResModel.

(** ** base64 *)
Lemma std_val_char n : (n < 64)%N -> std_val (std_char n) = Some n /\ std_char n <> "="%char
  /\ (Ascii.eqb (std_char n) "013" || Ascii.eqb (std_char n) "010")%bool = false /\ std_of (b64_char n) = std_char n.
Proof.
  intros H.
  assert (E : In n (map N.of_nat (seq 0 64))).
  { apply in_map_iff. exists (N.to_nat n). split; [lia|]. apply in_seq. lia. }
  clear H. cbn [seq map In] in E. repeat (destruct E as [<-|E]; [vm_compute; repeat split; try reflexivity; discriminate|]). destruct E.
Qed.
Definition b64_text (s : string) : Prop := forall c, In c (list_ascii_of_string s) -> exists n, (n < 64)%N /\ c = b64_char n.
Lemma b64_encode_text s : b64_text (b64_encode s).
Proof.
  unfold b64_text. induction s as [|a|a b|a b c s IH] using string_ind3; cbn [b64_encode list_ascii_of_string In]; [tauto| | |];
    intros x Hx; repeat (destruct Hx as [<-|Hx]; [rewrite land63; eexists; split; [apply mod64_lt|reflexivity]|]); try tauto. now apply IH.
Qed.
Lemma sixbits_std s : b64_text s -> smap sixbits (smap std_of s) = s.
Proof.
  induction s as [|c s IH]; intros H; [reflexivity|]. cbn [smap].
  destruct (H c) as (n & Hn & ->); [now left|]. destruct (std_val_char n Hn) as (Hv & _ & _ & ->). unfold sixbits at 1. rewrite Hv.
  f_equal. apply IH. intros x Hx. apply H. now right.
Qed.
Lemma strip_std s : b64_text s -> forall t, strip_crlf (smap std_of s ++ t) = smap std_of s ++ strip_crlf t.
Proof.
  induction s as [|c s IH]; intros H t; [reflexivity|]. cbn [smap append strip_crlf].
  destruct (H c) as (n & Hn & ->); [now left|]. destruct (std_val_char n Hn) as (_ & _ & Hc & ->). rewrite Hc. f_equal.
  apply IH. intros x Hx. apply H. now right.
Qed.
Lemma strip_std_encode s : strip_crlf (std_encode s) = std_encode s.
Proof.
  induction s as [|a|a b|a b c s IH] using string_ind3; cbn [std_encode]; [reflexivity| | |];
    rewrite strip_std by apply b64_encode_text; [reflexivity..|]. now rewrite IH.
Qed.
Lemma std_of_ne s c : b64_text s -> In c (list_ascii_of_string (smap std_of s)) -> Ascii.eqb c "=" = false.
Proof.
  induction s as [|d s IH]; intros H Hc; [destruct Hc|]. cbn [smap list_ascii_of_string In] in Hc. destruct Hc as [<-|Hc].
  - destruct (H d) as (n & Hn & ->); [now left|]. destruct (std_val_char n Hn) as (_ & Hc & _ & ->). now apply Ascii.eqb_neq.
  - apply IH; [|assumption]. intros x Hx. apply H. now right.
Qed.
Lemma std_decode_encode s : std_decode (std_encode s) = Some s.
Proof.
  unfold std_decode. rewrite strip_std_encode.
  induction s as [|a|a b|a b c s IH] using string_ind3; cbn [std_encode]; [reflexivity| | |].
  - pose proof (b64_encode_text (String a "")) as Ht. pose proof (b64_quanta_encode (String a "")) as Hq.
    pose proof (sixbits_std _ Ht) as Hs. cbn [b64_encode smap append] in *. cbn [std_quanta smap].
    rewrite !Ascii.eqb_refl. now rewrite Hs.
  - pose proof (b64_encode_text (String a (String b ""))) as Ht. pose proof (b64_quanta_encode (String a (String b ""))) as Hq.
    pose proof (sixbits_std _ Ht) as Hs. assert (Hn := fun c => std_of_ne _ c Ht). cbn [b64_encode smap append list_ascii_of_string In] in *. cbn [std_quanta smap].
    rewrite Ascii.eqb_refl. rewrite Hn by tauto. now rewrite Hs.
  - pose proof (b64_encode_text (String a (String b (String c "")))) as Ht. pose proof (b64_quanta_encode (String a (String b (String c "")))) as Hq.
    pose proof (sixbits_std _ Ht) as Hs. assert (Hn := fun c => std_of_ne _ c Ht). cbn [b64_encode smap append list_ascii_of_string In] in *. cbn [std_quanta smap].
    rewrite Hn by tauto. rewrite Hs, Hq, IH. reflexivity.
Qed.

(** ** query strings *)
Lemma query_unescape_iff s t : query_unescape s = Some t <-> unescaped s t.
Proof.
  split.
  - revert t. cut (forall n s, (String.length s <= n)%nat -> forall t, query_unescape s = Some t -> unescaped s t).
    { intros H t. apply (H (String.length s)). lia. }
    induction n as [|n IH]; intros [|c s'] Hl t H; cbn [String.length] in Hl; try lia; cbn [query_unescape] in H.
    + injection H as <-. constructor.
    + injection H as <-. constructor.
    + destruct (Ascii.eqb_spec c "%") as [->|N1].
      * destruct s' as [|h [|l s'']]; try discriminate. destruct (hex_val h) eqn:Eh; [|discriminate]. destruct (hex_val l) eqn:El; [|discriminate].
        destruct (query_unescape s'') eqn:E; [|discriminate]. injection H as <-. apply ue_hex; try assumption. apply IH; [cbn in Hl; lia|assumption].
      * destruct (Ascii.eqb_spec c "+") as [->|N2]; destruct (query_unescape s') eqn:E; try discriminate; injection H as <-;
          constructor; try assumption; apply IH; try assumption; lia.
  - induction 1; cbn [query_unescape].
    + reflexivity.
    + now rewrite IHunescaped.
    + cbn. now rewrite H, H0, IHunescaped.
    + destruct (Ascii.eqb_spec c "%"); [contradiction|]. destruct (Ascii.eqb_spec c "+"); [contradiction|]. now rewrite IHunescaped.
Qed.
Lemma contains_iff c s : contains c s = false <-> free_of c s.
Proof.
  induction s as [|d s IH]; [split; [intros _ []|reflexivity]|]. cbn [contains]. rewrite orb_false_iff, free_of_cons, IH.
  rewrite Ascii.eqb_neq. intuition congruence.
Qed.
Lemma cut_eq_spec s k v : cut_eq s = (k, v) -> free_of "=" k /\ (s = k ++ String "=" v \/ (s = k /\ v = "")).
Proof.
  revert k v. induction s as [|c s IH]; intros k v H; cbn [cut_eq] in H.
  - injection H as <- <-. split; [intros []|]. right. auto.
  - destruct (Ascii.eqb_spec c "=") as [->|N].
    + injection H as <- <-. split; [intros []|]. now left.
    + destruct (cut_eq s) as [a b] eqn:E. injection H as <- <-. destruct (IH a b eq_refl) as [Hf Hs].
      split; [apply free_of_cons; auto|]. destruct Hs as [->|[-> ->]]; [left; reflexivity|right; auto].
Qed.
Lemma cut_eq_pair k v : free_of "=" k -> cut_eq (k ++ String "=" v) = (k, v).
Proof.
  induction k as [|c k IH]; intros H; cbn [append cut_eq]; [reflexivity|]. apply free_of_cons in H as [Hc H].
  destruct (Ascii.eqb_spec c "="); [contradiction|]. now rewrite IH.
Qed.
Lemma cut_eq_key k : free_of "=" k -> cut_eq k = (k, "").
Proof.
  induction k as [|c k IH]; intros H; cbn [append cut_eq]; [reflexivity|]. apply free_of_cons in H as [Hc H].
  destruct (Ascii.eqb_spec c "="); [contradiction|]. now rewrite IH.
Qed.
Lemma unescaped_nil t : unescaped "" t <-> t = "".
Proof. split; [now inversion 1|intros ->; constructor]. Qed.
Lemma piece_iff p k' v' : piece p k' v' <-> let '(k, v) := cut_eq p in query_unescape k = Some k' /\ query_unescape v = Some v'.
Proof.
  split.
  - intros [k v a b Hf Hk Hv|k a Hf Hk].
    + rewrite cut_eq_pair by assumption. now rewrite !query_unescape_iff.
    + rewrite cut_eq_key by assumption. now rewrite query_unescape_iff.
  - destruct (cut_eq p) as [k v] eqn:E. rewrite !query_unescape_iff. intros [Hk Hv].
    destruct (cut_eq_spec _ _ _ E) as [Hf [->|[-> ->]]]; [now constructor|]. apply unescaped_nil in Hv as ->. now constructor.
Qed.
Lemma parse_pieces_spec l : 
  (Forall (fun p => p = "" \/ (free_of ";" p /\ exists k w, piece p k w)) l -> exists vs, parse_pieces l = Some vs)
  /\ (forall vs, parse_pieces l = Some vs -> Forall (fun p => p = "" \/ (free_of ";" p /\ exists k w, piece p k w)) l
       /\ forall k v, mget vs k = Some v <-> exists pre p post, l = (pre ++ p :: post)%list /\ p <> "" /\ piece p k v
            /\ Forall (fun p' => p' <> "" -> forall w, ~ piece p' k w) pre).
Proof.
  induction l as [|p l (IH1 & IH2)].
  - split; [intros _; now exists []|]. intros vs [= <-]. split; [constructor|]. intros k v. split; [discriminate|].
    intros (pre & p & post & H & _). destruct pre; discriminate.
  - split.
    + intros H. inversion H as [|? ? Hp Hl]; subst. destruct (IH1 Hl) as (vs & Hvs). cbn [parse_pieces].
      destruct Hp as [->|(Hf & k & w & Hp)]; [cbn [contains String.eqb]; eauto|].
      apply contains_iff in Hf. rewrite Hf. destruct (String.eqb p ""); [eauto|]. apply piece_iff in Hp.
      destruct (cut_eq p) as [a b]. destruct Hp as [-> ->]. rewrite Hvs. eauto.
    + intros vs. cbn [parse_pieces]. destruct (contains ";" p) eqn:Ec; [discriminate|]. apply contains_iff in Ec.
      destruct (String.eqb_spec p "") as [->|Np].
      * intros H. destruct (IH2 vs H) as [Hf Hg]. split; [constructor; auto|]. intros k v. rewrite Hg. split.
        -- intros (pre & p & post & -> & Hp). exists ("" :: pre)%list, p, post. split; [reflexivity|]. destruct Hp as (H1 & H2 & H3).
           repeat split; try assumption. constructor; [congruence|assumption].
        -- intros (pre & p & post & He & H1 & H2 & H3). destruct pre as [|x pre]; cbn in He; injection He as <- He; [congruence|].
           exists pre, p, post. inversion H3; subst. auto.
      * destruct (cut_eq p) as [a b] eqn:Ea. destruct (query_unescape a) as [k'|] eqn:Ek; [|discriminate].
        destruct (query_unescape b) as [v'|] eqn:Ev; [|discriminate]. destruct (parse_pieces l) as [r|] eqn:El; [|discriminate]. intros [= <-].
        assert (Hpi : forall k v, piece p k v <-> k = k' /\ v = v').
        { intros k v. rewrite piece_iff, Ea, Ek, Ev. intuition congruence. }
        destruct (IH2 r eq_refl) as [Hf Hg]. split.
        { constructor; [|assumption]. right. split; [assumption|]. exists k', v'. now apply Hpi. }
        intros k v. cbn [mget]. destruct (String.eqb_spec k k') as [->|Nk].
        -- split.
           ++ intros [= <-]. exists []%list, p, l. split; [reflexivity|]. split; [assumption|]. split; [now apply Hpi|constructor].
           ++ intros (pre & q & post & He & H1 & H2 & H3). destruct pre as [|x pre]; cbn in He; injection He as <- He.
              ** apply Hpi in H2 as [_ ->]. reflexivity.
              ** inversion H3 as [|? ? Hx]; subst. exfalso. apply (Hx Np v'). now apply Hpi.
        -- rewrite Hg. split.
           ++ intros (pre & q & post & -> & H1 & H2 & H3). exists (p :: pre)%list, q, post. repeat split; try assumption.
              constructor; [|assumption]. intros _ w Hw. apply Hpi in Hw as [-> _]. congruence.
           ++ intros (pre & q & post & He & H1 & H2 & H3). destruct pre as [|x pre]; cbn in He; injection He as <- He.
              ** apply Hpi in H2 as [-> _]. congruence.
              ** exists pre, q, post. inversion H3; subst. auto.
Qed.
Lemma first_value_iff q k v : first_value q k v <-> exists vs, parse_query q = Some vs /\ mget vs k = Some v.
Proof.
  unfold first_value, parse_query. destruct (parse_pieces_spec (split_on "&" q)) as [H1 H2]. split.
  - intros [Hf Hx]. destruct (H1 Hf) as (vs & Hvs). exists vs. split; [assumption|]. now apply (proj2 (H2 vs Hvs)).
  - intros (vs & Hvs & Hm). destruct (H2 vs Hvs) as [Hf Hg]. split; [assumption|]. now apply Hg.
Qed.

(** ** lists *)
Lemma first_such_find {A} (P : A -> Prop) f l x : (forall y, f y = true <-> P y) -> (find f l = Some x <-> first_such P l x).
Proof.
  intros Hf. induction l as [|y l IH]; cbn [find].
  - split; [discriminate|]. intros (pre & post & H & _). destruct pre; discriminate.
  - destruct (f y) eqn:E.
    + apply Hf in E. split.
      * intros [= <-]. exists []%list, l. auto.
      * intros (pre & post & H & Hp & Hn). destruct pre as [|z pre]; cbn in H; injection H as <- H; [reflexivity|]. inversion Hn; subst. contradiction.
    + assert (N : ~ P y) by (intros H; apply Hf in H; congruence). rewrite IH. split.
      * intros (pre & post & -> & Hp & Hn). exists (y :: pre)%list, post. auto.
      * intros (pre & post & H & Hp & Hn). destruct pre as [|z pre]; cbn in H; injection H as <- H; [contradiction|].
        exists pre, post. inversion Hn; subst. auto.
Qed.
Lemma find_app_ {A} (f : A -> bool) l l' : find f (l ++ l')%list = match find f l with Some x => Some x | None => find f l' end.
Proof. induction l as [|x l IH]; cbn; [reflexivity|]. now destruct (f x). Qed.
Lemma find_ext_ {A} (f g : A -> bool) l : (forall x, f x = g x) -> find f l = find g l.
Proof. intros H. induction l as [|x l IH]; cbn; [reflexivity|]. now rewrite H, IH. Qed.

Lemma object_id_iff d o : object_id d = Some o <-> text_at d "objectId" o.
Proof. unfold object_id, text_at. destruct (mget d "objectId") as [[]|]; split; congruence. Qed.
Definition is_cq (d : gomap json) : bool := is_method d "CollectionsQuery" && match object_id d with Some _ => true | None => false end.
Lemma is_cq_iff d : is_cq d = true <-> collections_query d.
Proof.
  unfold is_cq, collections_query, is_method, object_id, text_at. rewrite andb_true_iff. split.
  - destruct (mget d "method") as [[| | |m| |]|]; try (intros [? ?]; discriminate). destruct (mget d "objectId") as [[| | |o| |]|]; try (intros [? ?]; discriminate).
    intros [H _]. exists m, o. auto.
  - intros (m & o & -> & H & ->). auto.
Qed.
Lemma first_valid_find ds : first_valid "CollectionsQuery" ds =
  match find is_cq ds with Some d => match object_id d with Some o => Ok (o, d) | None => Err "objectId is not defined" end
  | None => Err "objectId is not defined" end.
Proof.
  induction ds as [|d ds IH]; [reflexivity|]. cbn [first_valid find]. unfold is_cq at 1.
  destruct (is_method d "CollectionsQuery"); cbn [negb andb]; [|exact IH]. destruct (object_id d) eqn:E; [now rewrite E|exact IH].
Qed.
Lemma first_valid_iff ds o d : first_valid "CollectionsQuery" ds = Ok (o, d) <-> first_such collections_query ds d /\ text_at d "objectId" o.
Proof.
  rewrite first_valid_find, <- (first_such_find _ _ _ _ is_cq_iff), <- object_id_iff.
  destruct (find is_cq ds) as [d'|].
  - destruct (object_id d') eqn:E; split; try discriminate; try (intros [[= <-] ?]; congruence). intros [= <- <-]. auto.
  - split; [discriminate|]. intros [? _]. discriminate.
Qed.
Lemma split_query url : 
  match split_on "?" url with
  | did :: q :: _ => exists tail, url = did ++ String "?" (q ++ tail) /\ free_of "?" did /\ free_of "?" q /\ (tail = "" \/ exists t, tail = String "?" t)
  | did :: [] => url = did /\ free_of "?" url
  | [] => False
  end.
Proof.
  pose proof (split_on_parts "?" url) as Hp. pose proof (concat_split_on "?" url) as Hc.
  destruct (split_on "?" url) as [|did [|q l]] eqn:E.
  - destruct url; cbn in E; [discriminate|]. destruct (Ascii.eqb _ _); [discriminate|]. destruct (split_on _ _); discriminate.
  - cbn in Hc. subst url. inversion Hp; auto.
  - inversion Hp as [|? ? Hd Hp']; subst. inversion Hp' as [|? ? Hq Hl]; subst. destruct l as [|x l].
    + exists "". cbn [String.concat append]. rewrite append_nil_r. repeat split; auto.
    + exists (String "?" (String.concat "?" (x :: l))). rewrite !concat_cons. repeat split; eauto.
Qed.
Lemma split_of_query did q tail : free_of "?" did -> free_of "?" q -> (tail = "" \/ exists t, tail = String "?" t) ->
  exists r, split_on "?" (did ++ String "?" (q ++ tail)) = did :: q :: r.
Proof.
  intros Hd Hq Ht. rewrite split_on_app by assumption. destruct Ht as [->|[t ->]].
  - rewrite append_nil_r, split_on_free by assumption. eauto.
  - rewrite split_on_app by assumption. eauto.
Qed.
(** what getQueries and GetRequest make of a URL *)
Lemma request_of_iff N url did obj desc : 
  (hd "" (split_on "?" url) = did /\ exists ds, get_queries N url = Ok ds /\ first_valid "CollectionsQuery" ds = Ok (obj, desc))
  <-> designates N url did desc obj.
Proof.
  unfold designates. split.
  - intros (Hd & ds & Hg & Hf). pose proof (split_query url) as Hs. unfold get_queries in Hg.
    destruct (split_on "?" url) as [|d [|q l]]; try discriminate. cbn [hd] in Hd. subst d. destruct Hs as (tail & -> & H1 & H2 & H3).
    destruct (parse_query q) as [vs|] eqn:Ep; [|discriminate]. unfold query_get in Hg.
    destruct (mget vs "queries") as [b64|] eqn:Em; [|discriminate]. destruct (String.eqb_spec b64 "") as [->|Nb]; [discriminate|]. cbn [negb guard bind] in Hg.
    destruct (std_decode b64) as [bytes|] eqn:Eb; [|discriminate]. destruct (ne_queries N bytes) as [ds'|] eqn:Eq; [|discriminate]. injection Hg as ->.
    apply first_valid_iff in Hf as [Hf Ho]. exists q, tail, b64, bytes, ds. rewrite first_value_iff.
    repeat split; try assumption. exists vs. auto.
  - intros (q & tail & b64 & bytes & ds & -> & H1 & H2 & H3 & Hv & Nb & Eb & Eq & Hf & Ho).
    destruct (split_of_query did q tail H1 H2 H3) as (r & Er). rewrite Er. cbn [hd]. split; [reflexivity|]. exists ds.
    split; [|apply first_valid_iff; auto]. apply first_value_iff in Hv as (vs & Hp & Hm). unfold get_queries. rewrite Er, Hp. unfold query_get. rewrite Hm.
    apply String.eqb_neq in Nb. rewrite Nb. cbn [negb guard bind]. now rewrite Eb, Eq.
Qed.
Lemma first_uri_iff N vs u : first_uri N vs = Ok u <-> exists v, first_such (fun v => ne_core N v <> None) vs v /\ ne_core N v = Some u.
Proof.
  assert (Hf : forall v, (fun v => match ne_core N v with Some _ => true | None => false end) v = true <-> ne_core N v <> None).
  { intros v. cbn. destruct (ne_core N v); split; congruence. }
  transitivity (exists v, find (fun v => match ne_core N v with Some _ => true | None => false end) vs = Some v /\ ne_core N v = Some u).
  - induction vs as [|v vs IH]; cbn [first_uri find]; [split; [discriminate|intros (? & ? & _); discriminate]|].
    destruct (ne_core N v) eqn:E; [|exact IH]. split; [intros [= <-]; eauto|]. intros (v' & [= <-] & H). congruence.
  - split; intros (v & H & E); exists v; (split; [|assumption]); now apply (first_such_find _ _ _ _ Hf).
Qed.
Lemma hub_address_iff N doc u : service_endpoint N doc = Ok u <-> hub_address N doc u.
Proof.
  unfold service_endpoint, hub_address.
  assert (Hf : forall s, (fun s => String.eqb (sv_type s) "IdentityHub") s = true <-> sv_type s = "IdentityHub") by (intros s; apply String.eqb_eq).
  destruct (find (fun s => String.eqb (sv_type s) "IdentityHub") (dd_services doc)) as [s|] eqn:E.
  - assert (Hs : first_such (fun s => sv_type s = "IdentityHub") (dd_services doc) s) by now apply (first_such_find _ _ _ _ Hf).
    assert (Hu : forall s', first_such (fun s => sv_type s = "IdentityHub") (dd_services doc) s' -> s' = s).
    { intros s' H'. apply (first_such_find _ _ _ _ Hf) in H'. congruence. }
    split.
    + intros H. exists s. split; [assumption|]. destruct (sv_comm s) eqn:Ec.
      * destruct (sv_uri s); [|discriminate]. injection H as ->. now left.
      * unfold core_endpoint in H. destruct (sv_uri s); [injection H as ->; now left|]. right. split; [reflexivity|]. split; [reflexivity|].
        destruct (sv_map s) as [m|]; [|discriminate]. apply first_uri_iff in H as (v & Hv). exists m, v. tauto.
    + intros (s' & Hs' & H). apply Hu in Hs' as ->. unfold core_endpoint. destruct H as [->|(-> & -> & m & v & -> & Hv & He)].
      * now destruct (sv_comm s).
      * apply first_uri_iff. eauto.
  - split; [discriminate|]. intros (s & Hs & _). apply (first_such_find _ _ _ _ Hf) in Hs. congruence.
Qed.
Lemma check_status_iff r : check_status r = Ok tt <-> all_ok r.
Proof.
  unfold check_status, all_ok. destruct (hp_code r) as [c|].
  - destruct (Z.eqb_spec c 200) as [->|Nc]; cbn [guard bind].
    + destruct (forallb _ _) eqn:E; cbn [guard].
      * split; [|reflexivity]. intros _. split; [now intros c [= <-]|]. rewrite forallb_forall in E. apply Forall_forall. intros x Hx. apply Z.eqb_eq. now apply E.
      * split; [discriminate|]. intros [_ H]. exfalso. rewrite <- not_true_iff_false in E. apply E. apply forallb_forall. rewrite Forall_forall in H. intros x Hx. apply Z.eqb_eq. now apply H.
    + split; [discriminate|]. intros [H _]. now specialize (H c eq_refl).
  - cbn [bind]. destruct (forallb _ _) eqn:E; cbn [guard].
    + split; [|reflexivity]. intros _. split; [discriminate|]. rewrite forallb_forall in E. apply Forall_forall. intros x Hx. apply Z.eqb_eq. now apply E.
    + split; [discriminate|]. intros [_ H]. exfalso. rewrite <- not_true_iff_false in E. apply E. apply forallb_forall. rewrite Forall_forall in H. intros x Hx. apply Z.eqb_eq. now apply H.
Qed.
Definition is_entry (obj : string) (e : hub_entry) : bool := match object_id (he_desc e) with Some o => equal_fold o obj | None => false end.
Lemma is_entry_iff obj e : is_entry obj e = true <-> exists o, text_at (he_desc e) "objectId" o /\ equal_fold o obj = true.
Proof.
  unfold is_entry. destruct (object_id (he_desc e)) as [o|] eqn:E.
  - apply object_id_iff in E. split; [eauto|]. intros (o' & H & Hf). unfold text_at in *. congruence.
  - split; [discriminate|]. intros (o & H & _). apply object_id_iff in H. congruence.
Qed.
Lemma entry_data_find obj es : entry_data obj es =
  option_map (fun e => match std_decode (he_data e) with Some b => Ok b | None => Err "decode message bytes" end) (find (is_entry obj) es).
Proof.
  induction es as [|e es IH]; [reflexivity|]. cbn [entry_data find]. unfold is_entry at 1.
  destruct (object_id (he_desc e)); [|exact IH]. destruct (equal_fold _ obj); [reflexivity|exact IH].
Qed.
Lemma message_data_find obj rs : message_data obj rs =
  match find (is_entry obj) (flat_map hr_entries rs) with
  | Some e => match std_decode (he_data e) with Some b => Ok b | None => Err "decode message bytes" end
  | None => Err "unable to get message by object ID"
  end.
Proof.
  induction rs as [|r rs IH]; [reflexivity|]. cbn [message_data flat_map]. rewrite entry_data_find, find_app_.
  destruct (find (is_entry obj) (hr_entries r)); [reflexivity|exact IH].
Qed.
Lemma message_data_iff obj r b : message_data obj (hp_replies r) = Ok b <-> exists e, entry_for r obj e /\ std_decode (he_data e) = Some b.
Proof.
  rewrite message_data_find. unfold entry_for. split.
  - destruct (find _ _) as [e|] eqn:E; [|discriminate]. apply (first_such_find _ _ _ _ (is_entry_iff obj)) in E.
    destruct (std_decode (he_data e)) eqn:Ed; [|discriminate]. intros [= <-]. eauto.
  - intros (e & He & Hd). apply (first_such_find _ _ _ _ (is_entry_iff obj)) in He. now rewrite He, Hd.
Qed.
(** ** requests *)
Lemma send_spec N m u h b token : send_request N {| rq_method := m; rq_url := u; rq_headers := h; rq_body := b |} 200 token =
  let q := {| rq_method := m; rq_url := u; rq_headers := (h ++ auth token)%list; rq_body := b |} in
  ([q], match ne_net N q with
        | NoReply => Err "client.Do" | Reply _ None => Err "unable to read response"
        | Reply st (Some b) => let* _ := guard (st =? 200) "unexpected response code" in Ok b end).
Proof. unfold send_request, auth. destruct (String.eqb token ""); cbn [rq_method rq_url rq_headers rq_body]; [now rewrite app_nil_r|reflexivity]. Qed.
Lemma answer_iff N q b :
  match ne_net N q with
  | NoReply => Err "client.Do" | Reply _ None => Err "unable to read response"
  | Reply st (Some b) => let* _ := guard (st =? 200) "unexpected response code" in Ok b end = Ok b <-> served N q b.
Proof.
  unfold served. destruct (ne_net N q) as [|st [b'|]]; try (split; congruence). destruct (Z.eqb_spec st 200) as [->|Ns]; cbn [guard bind]; split; congruence.
Qed.
Lemma prefix_iff url : has_prefix "did:" url = true <-> is_did url.
Proof. unfold is_did. split; [apply has_prefix_inv|]. intros [r ->]. apply has_prefix_app. Qed.

Definition did_bytes N token url b := is_did url /\ exists did desc obj doc addr body r e,
        designates N url did desc obj /\ ne_did N did = Ok (Some doc) /\ hub_address N doc addr /\ ne_url N addr = true
        /\ served N (post_of N token doc addr desc) body /\ ne_response N body = Some r /\ all_ok r
        /\ entry_for r obj e /\ std_decode (he_data e) = Some b.
(** the preparation of the hub request, and everything after it *)
Lemma resolve_did_cases N token url :
  (exists did desc obj doc addr, designates N url did desc obj /\ ne_did N did = Ok (Some doc) /\ hub_address N doc addr /\ ne_url N addr = true
     /\ fst (resolve_did_url N token url) = [post_of N token doc addr desc]
     /\ forall b, snd (resolve_did_url N token url) = Ok b <-> exists body r e, served N (post_of N token doc addr desc) body
          /\ ne_response N body = Some r /\ all_ok r /\ entry_for r obj e /\ std_decode (he_data e) = Some b)
  \/ ((forall did desc obj doc addr, designates N url did desc obj -> ne_did N did = Ok (Some doc) -> hub_address N doc addr -> ne_url N addr = true -> False)
      /\ fst (resolve_did_url N token url) = [] /\ is_ok (snd (resolve_did_url N token url)) = false).
Proof.
  unfold resolve_did_url.
  destruct (ne_did N (hd "" (split_on "?" url))) as [d| |] eqn:Ed; cbn [bind].
  2,3: right; split; [|auto]; intros did desc obj doc addr Hd Hr _ _; apply request_of_iff in Hd as [<- _]; congruence.
  destruct (get_queries N url) as [qs| |] eqn:Eq; cbn [bind].
  2,3: right; split; [|auto]; intros did desc obj doc addr Hd Hr _ _; apply request_of_iff in Hd as (_ & ds & Hq & _); congruence.
  destruct d as [doc|].
  2: right; split; [|auto]; intros did desc obj doc addr Hd Hr _ _; apply request_of_iff in Hd as [<- _]; congruence.
  unfold get_request. destruct (first_valid "CollectionsQuery" qs) as [[obj desc]| |] eqn:Ef; cbn [bind fst snd].
  2,3: right; split; [|auto]; intros did desc obj doc' addr Hd Hr _ _; apply request_of_iff in Hd as (_ & ds & Hq & Hf); congruence.
  assert (Hdes : designates N url (hd "" (split_on "?" url)) desc obj) by (apply request_of_iff; split; [reflexivity|eauto]).
  destruct (service_endpoint N doc) as [addr| |] eqn:Es; cbn [bind].
  2,3: right; split; [|auto]; intros did desc' obj' doc' addr Hd Hr Ha _; apply request_of_iff in Hd as [<- _];
    apply hub_address_iff in Ha; congruence.
  destruct (ne_url N addr) eqn:Eu; cbn [guard bind].
  2: right; split; [|auto]; intros did desc' obj' doc' addr' Hd Hr Ha Hu; apply request_of_iff in Hd as [<- _];
    apply hub_address_iff in Ha; congruence.
  left. exists (hd "" (split_on "?" url)), desc, obj, doc, addr. split; [assumption|]. split; [assumption|]. split; [now apply hub_address_iff|]. split; [assumption|].
  rewrite send_spec. cbn [app fst snd]. fold (post_of N token doc addr desc). split; [reflexivity|]. intros b. split.
  - intros H. apply bind_ok in H as (body & Hb & H). apply answer_iff in Hb. destruct (ne_response N body) as [r|] eqn:Er; [|discriminate].
    apply bind_ok in H as ([] & Hc & H). apply check_status_iff in Hc. apply message_data_iff in H as (e & He & Hd). exists body, r, e. auto.
  - intros (body & r & e & Hb & Er & Hc & He & Hd). apply answer_iff in Hb. unfold post_of in *. cbn [app] in *. rewrite Hb. cbn [bind]. rewrite Er. apply check_status_iff in Hc. rewrite Hc. cbn [bind].
    apply message_data_iff. eauto.
Qed.
Lemma designates_fun N url did desc obj did' desc' obj' : designates N url did desc obj -> designates N url did' desc' obj' ->
  did = did' /\ desc = desc' /\ obj = obj'.
Proof.
  intros H H'. apply request_of_iff in H as (H1 & ds & H2 & H3). apply request_of_iff in H' as (H1' & ds' & H2' & H3').
  rewrite H2 in H2'. injection H2' as <-. rewrite H3 in H3'. injection H3' as <- <-. subst. auto.
Qed.
Lemma hub_address_fun N doc a a' : hub_address N doc a -> hub_address N doc a' -> a = a'.
Proof. rewrite <- !hub_address_iff. congruence. Qed.
Definition list_bytes (N : nenv) (token url : string) : list http_request * res string :=
  if has_prefix "did:" url then resolve_did_url N token url
  else if ne_url N url then send_request N {| rq_method := "GET"; rq_url := url; rq_headers := []; rq_body := None |} 200 token
  else ([], Err "create request").
Lemma list_bytes_iff N token url b : snd (list_bytes N token url) = Ok b <-> delivered N token url b.
Proof.
  unfold list_bytes, delivered. destruct (has_prefix "did:" url) eqn:Ep.
  - apply prefix_iff in Ep. destruct (resolve_did_cases N token url) as [(did & desc & obj & doc & addr & Hd & Hr & Ha & Hu & _ & Hi)|(Hno & _ & Hf)].
    + rewrite Hi. split.
      * intros (body & r & e & H). right. split; [assumption|]. exists did, desc, obj, doc, addr, body, r, e. tauto.
      * intros [(Hn & _)|(_ & did' & desc' & obj' & doc' & addr' & body & r & e & H1 & H2 & H3 & H4 & H5)]; [contradiction|].
        destruct (designates_fun _ _ _ _ _ _ _ _ Hd H1) as (<- & <- & <-). rewrite Hr in H2. injection H2 as <-.
        rewrite (hub_address_fun _ _ _ _ Ha H3). exists body, r, e. exact H5.
    + split; [intros H; rewrite H in Hf; discriminate|]. intros [(Hn & _)|(_ & did & desc & obj & doc & addr & body & r & e & H1 & H2 & H3 & H4 & _)]; [contradiction|].
      exfalso. eauto.
  - assert (Hn : ~ is_did url) by (intros H; apply prefix_iff in H; congruence).
    destruct (ne_url N url) eqn:Eu.
    + rewrite send_spec. cbn [app snd]. fold (get_of token url). rewrite answer_iff. split; [auto|]. intros [(_ & _ & H)|(H & _)]; [assumption|contradiction].
    + split; [discriminate|]. intros [(_ & H & _)|(H & _)]; [congruence|contradiction].
Qed.
Lemma resolver_run_spec N V token url : resolver_run N V token url =
  (fst (list_bytes N token url), let* b := snd (list_bytes N token url) in parse_credential V status_opts b).
Proof. unfold resolver_run, list_bytes. now destruct (if has_prefix "did:" url then _ else _). Qed.
