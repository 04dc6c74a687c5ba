(** JWT path rewriting does not depend on the order in which Go walks the replacement table. *)
From Verif Require Import GoBase PexSpec StatusModel StatusProofs PexModel PexProofs StrLemmas.

Lemma replace_first_none old new s : contains old s = false -> replace_first old new s = s.
Proof.
  induction s as [|c s IH]; cbn; intros H; apply orb_false_iff in H as [H1 H2]; rewrite H1; [reflexivity|].
  now rewrite IH.
Qed.
Lemma contains_no_dollar p s : free_of "$" s -> contains (String "$" p) s = false.
Proof.
  induction s as [|c s IH]; intros H; cbn [contains has_prefix]; [reflexivity|]. apply free_of_cons in H as [Hc Hs].
  rewrite IH by assumption. destruct (Ascii.eqb_spec "$" c) as [E|E]; [subst; congruence|reflexivity].
Qed.
Lemma substring_all : forall s n, (String.length s <= n)%nat -> substring 0 n s = s.
Proof. induction s as [|c s IH]; intros n Hn; destruct n; cbn in *; auto; [lia|]. f_equal. apply IH. lia. Qed.
Lemma substring_skip : forall a b n, (String.length b <= n)%nat -> substring (String.length a) n (a ++ b) = b.
Proof. induction a as [|c a IH]; intros b n Hn; cbn; [now apply substring_all|]. now apply IH. Qed.
Lemma has_prefix_app p s : has_prefix p (p ++ s) = true.
Proof. induction p as [|c p IH]; cbn; [reflexivity|]. now rewrite Ascii.eqb_refl. Qed.
Lemma replace_first_prefix old new rest : replace_first old new (old ++ rest) = new ++ rest.
Proof.
  assert (H : forall s, has_prefix old s = true -> replace_first old new s = new ++ substring (String.length old) (String.length s) s).
  { intros s Hs. destruct s; cbn [replace_first]; now rewrite Hs. }
  rewrite H by apply has_prefix_app. f_equal. apply substring_skip. rewrite append_length. lia.
Qed.

(** A path rooted at the only dollar sign it contains. *)
Definition one_dollar (p : string) : Prop := exists r, p = String "$" r /\ free_of "$" r.
Lemma replace_first_one old new p : one_dollar p -> (exists o, old = String "$" o) ->
  replace_first old new p = match (if has_prefix old p then Some tt else None) with
                            | Some _ => new ++ substring (String.length old) (String.length p) p | None => p end.
Proof.
  intros (r & -> & Hr) (o & ->). destruct (has_prefix (String "$" o) (String "$" r)) eqn:E; cbn [replace_first]; rewrite E.
  - reflexivity.
  - f_equal. apply replace_first_none. now apply contains_no_dollar.
Qed.
(** [q] is [p] without its leading [vc] step. *)
Inductive drops_vc : string -> string -> Prop :=
| dv_dot r : drops_vc ("$.vc." ++ r) ("$." ++ r)
| dv_idx r : drops_vc ("$.vc[" ++ r) ("$[" ++ r)
| dv_brk r : drops_vc ("$['vc']" ++ r) ("$" ++ r).
Definition starts_vc (p : string) : Prop := exists q, drops_vc p q.

Lemma rule_no_match p r : one_dollar p -> ~ starts_vc p -> In r replacements -> replace_first (fst r) (snd r) p = p.
Proof.
  intros Hp Hn Hr. rewrite replace_first_one; [|assumption|]. 2:{ destruct Hr as [<-|[<-|[<-|[]]]]; eexists; reflexivity. }
  destruct (has_prefix (fst r) p) eqn:E; [|reflexivity]. exfalso. apply Hn. apply has_prefix_iff in E as (b & ->).
  destruct Hr as [<-|[<-|[<-|[]]]]; cbn [fst snd]; eexists; constructor.
Qed.
Lemma apply_no_match order p : one_dollar p -> ~ starts_vc p -> (forall r, In r order -> In r replacements) -> apply_replacements order p = p.
Proof.
  intros Hp Hn. unfold apply_replacements. induction order as [|r order IH]; intros Hin; [reflexivity|]. cbn [fold_left].
  rewrite rule_no_match; auto. - apply IH. intros; apply Hin; now right. - apply Hin. now left.
Qed.
Lemma rule_hits p q : drops_vc p q -> exists r, In r replacements /\ replace_first (fst r) (snd r) p = q /\
  forall r', In r' replacements -> r' = r \/ has_prefix (fst r') p = false.
Proof.
  intros H. destruct H as [r|r|r].
  - exists ("$.vc.", "$."). split; [now left|]. split; [apply replace_first_prefix|].
    intros r' [<-|[<-|[<-|[]]]]; [now left|right; reflexivity|right; reflexivity].
  - exists ("$.vc[", "$["). split; [right; now left|]. split; [apply replace_first_prefix|].
    intros r' [<-|[<-|[<-|[]]]]; [right; reflexivity|now left|right; reflexivity].
  - exists ("$['vc']", "$"). split; [right; right; now left|]. split; [apply replace_first_prefix|].
    intros r' [<-|[<-|[<-|[]]]]; [right; reflexivity|right; reflexivity|now left].
Qed.
Lemma drops_one p q : drops_vc p q -> one_dollar p -> one_dollar q.
Proof.
  intros H (r & E & Hr). destruct H as [x|x|x]; cbn in E; injection E as <-.
  - exists ("." ++ x). split; [reflexivity|]. apply free_of_cons. split; [discriminate|]. repeat (apply free_of_cons in Hr as [_ Hr]). exact Hr.
  - exists ("[" ++ x). split; [reflexivity|]. apply free_of_cons. split; [discriminate|]. repeat (apply free_of_cons in Hr as [_ Hr]). exact Hr.
  - exists x. split; [reflexivity|]. repeat (apply free_of_cons in Hr as [_ Hr]). exact Hr.
Qed.
Lemma apply_drops order p q : one_dollar p -> drops_vc p q -> ~ starts_vc q -> Permutation replacements order ->
  apply_replacements order p = q.
Proof.
  intros Hp Hd Hq Hperm. destruct (rule_hits p q Hd) as (r & Hr & Er & Hothers).
  assert (Hall : forall x, In x order -> In x replacements) by (intros x Hx; eapply Permutation_in; [apply Permutation_sym; exact Hperm|exact Hx]).
  assert (Hin : In r order) by (eapply Permutation_in; eassumption).
  clear Hperm. unfold apply_replacements. induction order as [|x order IH]; [destruct Hin|]. cbn [fold_left].
  assert (Hx : In x replacements) by (apply Hall; now left).
  destruct (Hothers x Hx) as [->|Hno].
  - rewrite Er. apply apply_no_match; [eapply drops_one; eassumption|assumption|intros; apply Hall; now right].
  - assert (Ex : replace_first (fst x) (snd x) p = p).
    { rewrite replace_first_one; [now rewrite Hno|assumption|]. destruct Hx as [<-|[<-|[<-|[]]]]; eexists; reflexivity. }
    rewrite Ex. destruct Hin as [->|Hin]; [exfalso; apply Hq; rewrite <- Er, Ex; exists q; exact Hd|]. apply IH; [intros; apply Hall; now right|assumption].
Qed.
