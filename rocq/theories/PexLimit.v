(** Limited disclosure of SD-JWT credentials during CreateVP: presexch/definition.go:1024-1220.
    Modelled: the SD-JWT branch of limitDisclosure (1112-1122), getLimitedDisclosures (1132-1197),
    SetSDJWTDisclosures (verifiable/credential.go:1050-1058, in-place update of the wallet's credential) and
    the loop of applyRequirement over one candidate descriptor set (774-813).
    Oracles: [eval_paths] (compactArrayPaths on the displayed JSON: (newPath, oldPath) pairs),
    [parent] (gjson lookup of the parent object in the undisclosed JSON), [sd_digests]
    (GetDisclosureDigests), [arr_digests] (ExtractArrayValuesForSDJWTV5), [hash] (GetHash). *)
From Verif Require Import GoBase PexSpec PexModel StrLemmas.

Record disclosure := { dc_name : string; dc_digest : string; dc_text : string }.

(** definition.go:1327-1334 splitLast(text, ".") *)
Fixpoint split_last_dot (s : string) : option (string * string) :=
  match s with
  | EmptyString => None
  | String c s' =>
      match split_last_dot s' with
      | Some (a, b) => Some (String c a, b)
      | None => if Ascii.eqb c "." then Some ("", s') else None
      end
  end.
Definition split_last (s : string) : string * string := match split_last_dot s with Some p => p | None => ("", s) end.

Section Limit.
  Variable eval_paths : list string -> list disclosure -> res (list (string * string)).
  Variable parent : string -> option (gomap json).
  Variable sd_digests : gomap json -> res (list string).
  Variable arr_digests : gomap json -> list string.
  Variable hash : string -> res string.

  (** definition.go:1166-1171; the digest map keeps the last disclosure of a digest. *)
  Definition by_digest (ds : list disclosure) (e : string) : option disclosure :=
    fold_left (fun acc d => if String.eqb (dc_digest d) e then Some d else acc) ds None.
  Definition array_part (ds : list disclosure) (obj : gomap json) : list disclosure :=
    List.concat (map (fun e => match by_digest ds e with Some d => [d] | None => [] end) (arr_digests obj)).
  (** definition.go:1180-1193 *)
  Fixpoint named_part (ds : list disclosure) (key : string) (digests : list string) : res (list disclosure) :=
    match ds with
    | [] => Ok []
    | d :: rest =>
        if String.eqb (dc_name d) key then
          let* h := hash (dc_text d) in
          let* r := named_part rest key digests in
          Ok (if str_in h digests then d :: r else r)
        else named_part rest key digests
    end.
  (** definition.go:1150-1194: one path. *)
  Definition limit_path (ds : list disclosure) (p : string * string) : res (list disclosure) :=
    if contains "credentialSchema" (fst p) then Ok []
    else
      let '(par, key) := split_last (snd p) in
      match parent par with
      | None => Ok []
      | Some obj =>
          let* dg := sd_digests obj in
          let* n := named_part ds key dg in
          Ok (array_part ds obj ++ n)%list
      end.
  Fixpoint limit_paths (ds : list disclosure) (ps : list (string * string)) : res (list disclosure) :=
    match ps with
    | [] => Ok []
    | p :: rest => let* a := limit_path ds p in let* b := limit_paths ds rest in Ok (a ++ b)%list
    end.
  (** definition.go:1132-1197 getLimitedDisclosures *)
  Fixpoint limited_disclosures (ds : list disclosure) (fields : list field) : res (list disclosure) :=
    match fields with
    | [] => Ok []
    | f :: rest =>
        let* ps := eval_paths (fd_paths f) ds in
        let* a := limit_paths ds ps in
        let* b := limited_disclosures ds rest in
        Ok (a ++ b)%list
    end.

  (** A disclosure is requested by a field: it is named by the last step of a path and its digest is in the
      parent object, or it discloses an array element below the parent object. *)
  Definition requested (all ds : list disclosure) (f : field) (d : disclosure) : Prop :=
    exists ps p obj, eval_paths (fd_paths f) all = Ok ps /\ In p ps /\ parent (fst (split_last (snd p))) = Some obj /\
      (In (dc_digest d) (arr_digests obj) \/
       (dc_name d = snd (split_last (snd p)) /\ exists dg h, sd_digests obj = Ok dg /\ hash (dc_text d) = Ok h /\ In h dg)).

  Lemma by_digest_spec ds e d : by_digest ds e = Some d -> In d ds /\ dc_digest d = e.
  Proof.
    unfold by_digest. assert (G : forall ds acc d, fold_left (fun acc d => if String.eqb (dc_digest d) e then Some d else acc) ds acc = Some d ->
      acc = Some d \/ In d ds /\ dc_digest d = e).
    { clear. induction ds as [|x ds IH]; intros acc d H; cbn in H; [now left|]. apply IH in H as [H|[H1 H2]]; [|right; split; [now right|assumption]].
      destruct (String.eqb_spec (dc_digest x) e) as [E|]; [|now left]. injection H as ->. right. split; [now left|assumption]. }
    intros H. apply G in H as [H|H]; [discriminate|assumption].
  Qed.
  Lemma named_part_spec key dg : forall ds l, named_part ds key dg = Ok l ->
    forall d, In d l -> In d ds /\ dc_name d = key /\ exists h, hash (dc_text d) = Ok h /\ In h dg.
  Proof.
    induction ds as [|x ds IH]; intros l H d Hd; cbn in H; [injection H as <-; destruct Hd|].
    destruct (String.eqb_spec (dc_name x) key) as [E|E].
    - destruct (hash (dc_text x)) as [h|e|] eqn:Eh; cbn in H; try discriminate.
      destruct (named_part ds key dg) as [r|e|]; cbn in H; try discriminate. injection H as <-.
      assert (Hr : In d r -> In d (x :: ds) /\ dc_name d = key /\ exists h, hash (dc_text d) = Ok h /\ In h dg).
      { intros Hin. destruct (IH r eq_refl d Hin) as (A & B). split; [now right|assumption]. }
      destruct (str_in h dg) eqn:Ei; [|auto]. destruct Hd as [<-|Hd]; [|auto]. apply str_in_In in Ei.
      split; [now left|]. split; [assumption|eauto].
    - destruct (IH l H d Hd) as (A & B). split; [now right|assumption].
  Qed.
  Lemma limit_path_spec ds p l : limit_path ds p = Ok l -> forall d, In d l -> In d ds /\
    exists obj, parent (fst (split_last (snd p))) = Some obj /\
      (In (dc_digest d) (arr_digests obj) \/
       (dc_name d = snd (split_last (snd p)) /\ exists dg h, sd_digests obj = Ok dg /\ hash (dc_text d) = Ok h /\ In h dg)).
  Proof.
    unfold limit_path. destruct (contains _ _); [intros [= <-] d []|]. destruct (split_last (snd p)) as [par key]. cbn [fst snd].
    destruct (parent par) as [obj|] eqn:Ep; [|intros [= <-] d []]. destruct (sd_digests obj) as [dg|e|] eqn:Ed; cbn; try discriminate.
    destruct (named_part ds key dg) as [n|e|] eqn:En; cbn; try discriminate. intros [= <-] d Hd.
    apply in_app_or in Hd as [Hd|Hd].
    - unfold array_part in Hd. apply in_concat in Hd as (x & Hx & Hin). apply in_map_iff in Hx as (e & <- & He).
      destruct (by_digest ds e) as [d'|] eqn:Eb; [|destruct Hin]. destruct Hin as [->|[]].
      apply by_digest_spec in Eb as [A B]. split; [assumption|]. exists obj. split; [reflexivity|]. left. now rewrite B.
    - destruct (named_part_spec _ _ _ _ En d Hd) as (A & B & h & C & D). split; [assumption|]. exists obj.
      split; [reflexivity|]. right. split; [assumption|]. exists dg, h. auto.
  Qed.
  Lemma limit_paths_spec ds : forall ps l, limit_paths ds ps = Ok l -> forall d, In d l -> In d ds /\
    exists p obj, In p ps /\ parent (fst (split_last (snd p))) = Some obj /\
      (In (dc_digest d) (arr_digests obj) \/
       (dc_name d = snd (split_last (snd p)) /\ exists dg h, sd_digests obj = Ok dg /\ hash (dc_text d) = Ok h /\ In h dg)).
  Proof.
    induction ps as [|p ps IH]; intros l H d Hd; cbn [limit_paths] in H; [injection H as <-; destruct Hd|].
    destruct (limit_path ds p) as [a|e|] eqn:Ea; cbn [bind] in H; try discriminate.
    destruct (limit_paths ds ps) as [b|e|] eqn:Eb; cbn [bind] in H; try discriminate. injection H as <-.
    apply in_app_or in Hd as [Hd|Hd].
    - destruct (limit_path_spec _ _ _ Ea d Hd) as (A & obj & B). split; [assumption|]. exists p, obj. split; [now left|assumption].
    - destruct (IH b eq_refl d Hd) as (A & p' & obj & B & C). split; [assumption|]. exists p', obj. split; [now right|assumption].
  Qed.
  (** Nothing is disclosed that was not already disclosed and requested by a field. *)
  Lemma limited_sound ds : forall fields l, limited_disclosures ds fields = Ok l -> forall d, In d l ->
    In d ds /\ exists f, In f fields /\ requested ds ds f d.
  Proof.
    induction fields as [|f fields IH]; intros l H d Hd; cbn [limited_disclosures] in H; [injection H as <-; destruct Hd|].
    destruct (eval_paths (fd_paths f) ds) as [ps|e|] eqn:Ep; cbn [bind] in H; try discriminate.
    destruct (limit_paths ds ps) as [a|e|] eqn:Ea; cbn [bind] in H; try discriminate.
    destruct (limited_disclosures ds fields) as [b|e|] eqn:Eb; cbn [bind] in H; try discriminate. injection H as <-.
    apply in_app_or in Hd as [Hd|Hd].
    - destruct (limit_paths_spec _ _ _ Ea d Hd) as (A & p & obj & B & C & D). split; [assumption|]. exists f. split; [now left|].
      exists ps, p, obj. auto.
    - destruct (IH b eq_refl d Hd) as (A & f' & B & C). split; [assumption|]. exists f'. split; [now right|assumption].
  Qed.

  (** ** One wallet credential shared by the descriptors of a candidate set.
      definition.go:774-813 for a wallet of one SD-JWT credential: each descriptor with limit_disclosure is
      matched against the credential as it is now and then overwrites its disclosures in place.
      [visible]: the filters applied to the credential with the given disclosures (filterConstraints). *)
  Variable visible : list field -> list disclosure -> bool.
  Fixpoint match_set (ds : list disclosure) (descs : list (list field)) : res (option (list disclosure)) :=
    match descs with
    | [] => Ok (Some ds)
    | fields :: rest =>
        if visible fields ds then
          let* ds' := limited_disclosures ds fields in match_set ds' rest
        else Ok None                              (* descriptor excluded: candidate set fails *)
    end.

  (** What is finally presented was requested by every descriptor of the set. *)
  Lemma match_set_intersection : forall descs ds out, match_set ds descs = Ok (Some out) ->
    forall d, In d out -> In d ds /\ Forall (fun fields => exists all f, In f fields /\ requested all all f d) descs.
  Proof.
    induction descs as [|fields descs IH]; intros ds out H d Hd; cbn [match_set] in H.
    - injection H as <-. auto.
    - destruct (visible fields ds); [|discriminate]. destruct (limited_disclosures ds fields) as [ds'|e|] eqn:El; cbn [bind] in H; try discriminate.
      destruct (IH ds' out H d Hd) as [A B]. destruct (limited_sound ds fields ds' El d A) as (C & f & D & E).
      split; [assumption|]. constructor; [eauto|assumption].
  Qed.
End Limit.
