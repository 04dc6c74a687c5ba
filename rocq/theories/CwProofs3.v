(** Lemmas about signing and reading COSE messages and claims. *)
From Coq Require Import Permutation Lia.
From Verif Require Import GoBase StrLemmas Base64 JwtSpec DiSpec VcSpec JwtModel JwtProofs SdSpec SdModel SdParse SdIssueV2 DiModel VcModel VcJwt VcParse VcSign CwModel CwSpec CwProofs CwProofs2.

(** ** Messages *)
Lemma slen_head mt n : (slen (head mt n) <= 9)%N.
Proof. unfold slen, head. repeat match goal with |- context[if ?c then _ else _] => destruct c end; cbn [String.length]; rewrite ?be_length; lia. Qed.
Lemma prefix_bytes : head 6 18 ++ head 4 4 = String (mk_byte 210) (String (mk_byte 132) "").
Proof. reflexivity. Qed.
Lemma payload_fits_item d p : payload_fits p -> fits false d (bytes_item p).
Proof. destruct p; cbn; [auto|left; lia]. Qed.
Lemma opt_bytes_item p : opt_bytes (bytes_item p) = Some p.
Proof. now destruct p. Qed.
Lemma parse_bytes hok c pm u p sig : (slen c < two64)%N -> protected_map (IBytes c) = Some pm -> fits false 31 (IMap u) -> payload_fits p ->
  (slen sig < two64)%N -> sig <> "" -> hok pm u = true ->
  parse_sign1 hok (head 6 18 ++ head 4 4 ++ enc (IBytes c) ++ enc (IMap u) ++ enc (bytes_item p) ++ enc (IBytes sig))
  = Some {| s1_raw := enc (IBytes c); s1_prot := pm; s1_unprot := u; s1_payload := p; s1_sig := sig |}.
Proof.
  intros Hc Hpm Hu Hp Hs Hne Hok. rewrite <- append_assoc_s, prefix_bytes. cbn [append]. unfold parse_sign1. rewrite !byte_mk by lia. cbn [N.eqb Pos.eqb andb negb].
  change (max_depth - 1)%nat with 31%nat.
  rewrite (dec_item_enc false 31 (IBytes c)) by exact Hc. rewrite (dec_item_enc false 31 (IMap u)) by exact Hu.
  rewrite (dec_item_enc false 31 (bytes_item p)) by now apply payload_fits_item.
  rewrite <- (append_nil_r (enc (IBytes sig))) at 1. rewrite (dec_item_enc false 31 (IBytes sig)) by exact Hs.
  rewrite Hpm, opt_bytes_item. cbn [opt_bytes]. destruct (String.eqb_spec sig ""); [contradiction|]. rewrite Hok. cbn [orb negb]. now rewrite take_prefix.
Qed.
Lemma int_fits d z : int64 z -> fits false d (int_item z) /\ fits true d (int_item z).
Proof. unfold int64, int_item. intros H. destruct (Z.ltb_spec z 0); cbn [fits]; unfold two64; lia. Qed.
Lemma slen_int z : (slen (enc (int_item z)) <= 9)%N.
Proof. unfold int_item. destruct (z <? 0)%Z; apply slen_head. Qed.
Definition header_bytes (alg : Z) (kid : string) : string := enc (IMap [(IUint 1, int_item alg); (IUint 4, IBytes kid)]).
Lemma header_small alg kid : sized kid -> (slen (header_bytes alg kid) < two64)%N.
Proof.
  unfold sized, header_bytes, two64. intros H. cbn [enc fold_right List.length]. rewrite !slen_app. pose proof (slen_int alg). pose proof (slen_head 5 (N.of_nat 2)). pose proof (slen_head 0 1).
  pose proof (slen_head 0 4). pose proof (slen_head 2 (slen kid)). change (slen "") with 0%N. lia.
Qed.
Lemma header_fits alg kid d : int64 alg -> sized kid -> fits true (S d) (IMap [(IUint 1, int_item alg); (IUint 4, IBytes kid)]).
Proof.
  intros Ha Hk. unfold sized in Hk. cbn [fits fold_right List.length]. split; [unfold max_elements; cbn; lia|].
  split; [split; [unfold two64; lia|apply int_fits, Ha]|]. split; [|exact I]. unfold two64. split; lia.
Qed.
Lemma sorted_header alg kid : sort_pairs [(IUint 1, int_item alg); (IUint 4, IBytes kid)] = [(IUint 1, int_item alg); (IUint 4, IBytes kid)].
Proof. reflexivity. Qed.
Lemma cose_protected p alg kid s : marshal_protected (cose_message p alg kid s) = enc (IBytes (header_bytes alg kid)).
Proof. unfold marshal_protected. cbn [s1_raw cose_message s1_prot String.eqb negb]. now rewrite sorted_header. Qed.
Lemma header_map alg kid : int64 alg -> sized kid -> protected_map (IBytes (header_bytes alg kid)) = Some [(IUint 1, int_item alg); (IUint 4, IBytes kid)].
Proof.
  intros Ha Hk. unfold protected_map. destruct (header_bytes alg kid) as [|a b] eqn:E.
  { unfold header_bytes in E. discriminate. }
  rewrite <- E. unfold header_bytes. rewrite dec_all_enc; [reflexivity|]. now apply header_fits.
Qed.
Lemma cose_value p alg kid s : sized kid -> get_proof_value (cose_message p alg kid s) = Ok (sig_structure (header_bytes alg kid) (Some p)).
Proof. intros Hk. apply (proof_value_ok (cose_message p alg kid s)). rewrite cose_protected. apply enc_is_bstr. now apply header_small. Qed.
Lemma header_alg_cose alg kid : header_alg [(IUint 1, int_item alg); (IUint 4, IBytes kid)] = Ok alg.
Proof. unfold header_alg. cbn [label_n N.eqb Pos.eqb]. unfold int_item. destruct (Z.ltb_spec alg 0); cbn [item_int]; f_equal; lia. Qed.
Definition parsed_message (p : string) (alg : Z) (kid s : string) : sign1 :=
  {| s1_raw := enc (IBytes (header_bytes alg kid)); s1_prot := [(IUint 1, int_item alg); (IUint 4, IBytes kid)];
     s1_unprot := [(IUint 16, IText header_typ)]; s1_payload := Some p; s1_sig := s |}.
Lemma marshal_parse hok sign p alg kid raw m : marshal_cose hok sign p alg kid = Ok (raw, m) -> int64 alg -> sized kid -> sized p -> sized (s1_sig m) ->
  m = cose_message p alg kid (s1_sig m) /\ sign alg kid (sig_structure (header_bytes alg kid) (Some p)) = Ok (s1_sig m)
  /\ parse_sign1 hok raw = Some (parsed_message p alg kid (s1_sig m))
  /\ get_proof_value (parsed_message p alg kid (s1_sig m)) = Ok (sig_structure (header_bytes alg kid) (Some p)) /\ s1_sig m <> ""
  /\ raw = head 6 18 ++ head 4 4 ++ enc (IBytes (header_bytes alg kid)) ++ enc (IMap [(IUint 16, IText header_typ)]) ++ enc (IBytes p) ++ enc (IBytes (s1_sig m)).
Proof.
  intros H Ha Hk Hp Hs. unfold marshal_cose in H. rewrite cose_value in H by assumption. cbn [bind] in H. apply bind_ok in H as (s & Hsg & H).
  apply bind_ok in H as (raw' & Hm & H). injection H as -> <-. cbn [s1_sig cose_message] in Hs |- *. split; [reflexivity|]. split; [assumption|].
  unfold marshal_sign1 in Hm. apply bind_ok in Hm as (? & Hg & Hm). apply bind_ok in Hm as (? & Hh & Hm). injection Hm as <-. rewrite cose_protected.
  cbn [s1_sig s1_prot s1_unprot s1_payload cose_message] in *. destruct (String.eqb_spec s "") as [|Hne]; [discriminate|].
  destruct (hok _ _) eqn:Hok in Hh; [|discriminate]. change (sort_pairs [(IUint 16, IText header_typ)]) with [(IUint 16, IText header_typ)].
  split; [|split; [|split; [assumption|reflexivity]]].
  - apply (parse_bytes hok _ _ [(IUint 16, IText header_typ)] (Some p) s (header_small alg kid Hk) (header_map alg kid Ha Hk)); try assumption.
    + cbn [fits fold_right List.length]. unfold max_elements, two64. cbn. repeat split; lia.
    + unfold payload_fits, sized, two64 in *. lia.
    + unfold sized, two64 in *. lia.
  - apply (proof_value_ok (parsed_message p alg kid s)). unfold marshal_protected. cbn [s1_raw parsed_message].
    destruct (String.eqb_spec (enc (IBytes (header_bytes alg kid))) "") as [E|]; cbn [negb]; [|now apply enc_is_bstr, header_small].
    exfalso. pose proof (proj2 (isize_le (IBytes (header_bytes alg kid)))) as L. rewrite E in L. cbn in L. lia.
Qed.
Lemma coset_same p alg kid s : sized kid -> int64 alg ->
  coset_of (parsed_message p alg kid s) = coset_of (cose_message p alg kid s).
Proof.
  intros Hk Ha. unfold coset_of. rewrite cose_value by assumption. f_equal. apply (proof_value_ok (parsed_message p alg kid s)). unfold marshal_protected. cbn [s1_raw parsed_message].
  destruct (String.eqb_spec (enc (IBytes (header_bytes alg kid))) "") as [E|]; cbn [negb]; [|now apply enc_is_bstr, header_small].
  exfalso. pose proof (proj2 (isize_le (IBytes (header_bytes alg kid)))) as L. rewrite E in L. cbn in L. lia.
Qed.

(** ** Claims *)
Lemma string_map_nodup l : NoDup (map fst l) -> string_map l = l.
Proof.
  intros H. unfold string_map. enough (G : forall l acc, NoDup (map fst (acc ++ l)) -> fold_left (fun (m : gomap json) (kv : string * json) => mset m (fst kv) (snd kv)) l acc = (acc ++ l)%list) by now apply (G l []).
  clear. induction l as [|[k v] l IH]; intros acc H; cbn [fold_left]; [now rewrite app_nil_r|].
  cbn [fst snd]. rewrite map_app in H. cbn [map fst] in H.
  assert (Hk : ~ In k (map fst acc)).
  { intros Hin. apply NoDup_remove_2 in H. apply H. apply in_or_app. now left. }
  rewrite mset_fresh by assumption. rewrite IH; [now rewrite <- app_assoc|]. rewrite <- app_assoc. cbn. now rewrite map_app.
Qed.
Lemma all_some_map {A B} (f : A -> option B) (g : A -> B) l : Forall (fun x => f x = Some (g x)) l -> all_some (map f l) = Some (map g l).
Proof. induction 1 as [|x l Hx _ IH]; [reflexivity|]. cbn [map all_some]. now rewrite Hx, IH. Qed.
Lemma fold_and {A} (f : A -> Prop) l : fold_right (fun x a => f x /\ a) True l <-> Forall f l.
Proof. induction l as [|x l IH]; cbn; [split; auto|]. rewrite IH. split; [intros []; auto|intros H; inversion H; auto]. Qed.
Lemma plain_text_key s : plain_text s -> key_text (IText s) = Some s.
Proof. intros [H _]. cbn. now rewrite H. Qed.
Lemma json_of_item F Fd j : forall d, plain F Fd d j -> json_of Fd (item_of F j) = Some j /\ fits true d (item_of F j).
Proof.
  induction j as [|b|q|s|l IH|m IH] using json_ind'; intros d H; cbn [item_of json_of fits].
  - split; [reflexivity|left; lia].
  - destruct b; (split; [reflexivity|left; lia]).
  - destruct H as [Hl Hq]. rewrite Hq. auto.
  - destruct H as [Hu Hl]. rewrite Hu. auto.
  - destruct d as [|d]; [contradiction|]. cbn [plain] in H. destruct H as [Hl H]. apply fold_and in H. rewrite map_map, map_length.
    assert (G : Forall (fun x => json_of Fd (item_of F x) = Some x /\ fits true d (item_of F x)) l).
    { clear Hl. induction IH as [|x l Hx _ IH']; constructor; inversion H; subst; auto. }
    split.
    + rewrite (all_some_map _ (fun x => x)), map_id; [reflexivity|]. eapply Forall_impl; [|exact G]. intros ? []; auto.
    + split; [assumption|]. clear Hl H IH. induction G as [|x l [_ Hx] _ IH']; cbn; auto.
  - destruct d as [|d]; [contradiction|]. cbn [plain] in H. destruct H as (Hl & Hnd & H).
    assert (H' : Forall (fun kv => plain_text (fst kv) /\ plain F Fd d (snd kv)) m).
    { clear Hl Hnd IH. induction m as [|[k v] m IHm]; constructor; cbn [fold_right fst snd] in *; tauto. }
    rewrite map_map, map_length.
    assert (G : Forall (fun kv => plain_text (fst kv) /\ json_of Fd (item_of F (snd kv)) = Some (snd kv) /\ fits true d (item_of F (snd kv))) m).
    { clear Hl Hnd H. induction IH as [|x m Hx _ IH']; constructor; inversion H'; subst; [|auto]. destruct H1. auto. }
    split.
    + rewrite (all_some_map _ (fun kv => kv)); [rewrite map_id, string_map_nodup by assumption; reflexivity|].
      eapply Forall_impl; [|exact G]. intros [k v] (A & B & _). cbn [fst snd] in *. rewrite (plain_text_key _ A), B. reflexivity.
    + split; [assumption|]. clear Hl Hnd H H' IH. induction G as [|[k v] m (A & _ & B) _ IH']; [exact I|]. cbn [map fold_right fst snd] in *.
      split; [split; [apply A|exact B]|exact IH'].
Qed.
Lemma json_int_item Fd z : int64 z -> json_of Fd (int_item z) = Some (jnum z).
Proof.
  unfold int64, int_item. intros H. destruct (Z.ltb_spec z 0); cbn [json_of].
  - destruct (N.ltb_spec (Z.to_N (-1 - z)) 9223372036854775808); [|lia]. do 2 f_equal. lia.
  - do 2 f_equal. lia.
Qed.
Lemma claims_read F Fd c : plain_claims F Fd c -> cbor_claims Fd (enc (claims_item F c)) = Some c.
Proof.
  intros (Hl & Hnd & H). unfold cbor_claims.
  assert (G : Forall (fun kv => plain_text (fst kv) /\ json_of Fd (claim_item F (snd kv)) = Some (snd kv) /\ fits true 31 (claim_item F (snd kv))) c).
  { eapply Forall_impl; [|exact H]. intros [k v] [Hk Hv]. cbn [fst snd] in *. split; [assumption|]. destruct v; try (now apply (json_of_item F Fd)).
    destruct Hv as (z & -> & Hz). cbn [claim_item inject_Z Qnum]. split; [now apply json_int_item|now apply int_fits]. }
  rewrite dec_all_enc.
  - unfold claims_item. rewrite map_map. cbn [fst snd]. rewrite (all_some_map _ (fun kv => kv)); [rewrite map_id; now rewrite string_map_nodup|].
    eapply Forall_impl; [|exact G]. intros [k v] ((A & _) & B & _). cbn [fst snd] in *. now rewrite A, B.
  - unfold claims_item, max_depth. cbn [fits]. rewrite map_length. split; [assumption|]. clear Hl Hnd H.
    induction G as [|[k v] m (A & _ & B) _ IH']; [exact I|]. cbn [map fold_right fst snd] in *. split; [split; [apply A|exact B]|exact IH'].
Qed.
(** ** Hex *)
Lemma hex_value_digit n : (n < 16)%N -> hex_value (hex_digit n) = Some n.
Proof.
  intros H. unfold hex_digit, hex_value, in_range. destruct (N.ltb_spec n 10).
  - rewrite byte_mk by lia. destruct (N.leb_spec 48 (48 + n)); [|lia]. destruct (N.leb_spec (48 + n) 57); [|lia]. cbn [andb]. f_equal. lia.
  - rewrite byte_mk by lia. destruct (N.leb_spec 48 (87 + n)); [|lia]. destruct (N.leb_spec (87 + n) 57); [lia|]. cbn [andb].
    destruct (N.leb_spec 97 (87 + n)); [|lia]. destruct (N.leb_spec (87 + n) 102); [|lia]. cbn [andb]. f_equal. lia.
Qed.
Lemma hex_round s : hex_decode (hex_encode s) = Some s.
Proof.
  induction s as [|a s IH]; [reflexivity|]. cbn [hex_encode hex_decode]. pose proof (byte_lt a) as Ha.
  rewrite !hex_value_digit by (try apply N.mod_lt; try apply N.div_lt_upper_bound; lia). rewrite IH. f_equal. f_equal.
  rewrite N.mul_comm, <- N.div_mod by discriminate. apply mk_byte_n.
Qed.
