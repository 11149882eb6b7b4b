From Coq Require Import Lia.
From Coq Require Import ZifyBool ZifyNat ZifyN.
From Verif Require Import PyBase PyBaseFacts LineModel DateModel RefModel RefSpec TreeModel TreeSpec TreeProofs StructModel SemModel SemSpec SemProofs SemProofs4 HtmlModel HtmlSpec HtmlProofs HtmlProofs2 HtmlProofs3 HtmlProofs6
  GramModel PegModel PegSpec PegProofs20.
Local Open Scope Z_scope.

(** * What is shown of an act that the grammar has read *)

Definition is_container (k : sae_kind) : bool := match k with KBlockAmendmentContainer => true | _ => false end.
Lemma bare_container e : is_container (s_kind e) = true -> bare e = e.
Proof. destruct e as [k i t n cs w m]. cbn. destruct k; try discriminate. reflexivity. Qed.
Definition bare_kid (c : child) : child := match c with ChSae s => ChSae (bare s) | _ => c end.
Lemma bare_other k i t n cs w m : is_container k = false ->
  bare (mk_sae k i t n cs w m) = mk_sae k i t n (match cs with None => None | Some l => Some (map bare_kid l) end) w NO_META.
Proof. destruct k; try discriminate; reflexivity. Qed.
Lemma bare_kind e : s_kind (bare e) = s_kind e.
Proof. destruct e as [k i t n cs w m]. destruct k; reflexivity. Qed.
Lemma carriers_other k i t n cs w m : is_container k = false ->
  carriers (mk_sae k i t n cs w m) = mk_sae k i t n cs w m :: match cs with None => [] | Some l => flat_map (fun c => match c with ChSae s => carriers s | _ => [] end) l end.
Proof. destruct k; try discriminate; destruct cs; reflexivity. Qed.

Definition sound (e : sae) : Prop := good_positions (links e).
Definition all_showable (s : sae) : Prop := showable (ChSae s) /\ forall c, inside_sae c s -> showable c.
Lemma sae_same :
  (forall s', forall s, bare s = bare s' -> all_showable s -> Forall sound (carriers s') -> all_showable s') /\
  (forall c', forall c, bare_kid c = bare_kid c' -> showable c -> (forall d, inside_child_of d c -> showable d) ->
     (forall s', c' = ChSae s' -> Forall sound (carriers s')) -> showable c' /\ forall d, inside_child_of d c' -> showable d) /\
  (forall a : article, True).
Proof.
  apply tree_mut; [| | | | |exact (fun _ _ _ _ => I)].
  - intros k i t n cs w m IH s E A F. destruct (is_container k) eqn:K.
    { rewrite (bare_container (mk_sae k i t n cs w m)) in E by exact K. enough (s = mk_sae k i t n cs w m) as <- by exact A. rewrite <- E. symmetry. apply bare_container.
      rewrite <- (bare_kind s), E. exact K. }
    rewrite bare_other in E by exact K. rewrite carriers_other in F by exact K. apply Forall_cons_iff in F as [F0 F].
    destruct s as [k' i' t' n' cs' w' m']. assert (k' = k) as -> by (pose proof (bare_kind (mk_sae k' i' t' n' cs' w' m')) as B; rewrite E in B; exact (eq_sym B)).
    rewrite bare_other in E by exact K. injection E as -> -> -> Ec ->. destruct A as [[S1 S2] A]. cbn [s_children s_kind s_text] in *. split.
    + split; [|intros _; exact F0]. cbn [s_children s_kind s_text]. destruct S1 as [S1|S1]; [left|now right]. destruct cs; [discriminate|]. destruct cs'; [discriminate|congruence].
    + destruct cs as [l|]; [|intros c C; inversion C; subst; discriminate]. destruct cs' as [l'|]; [|discriminate]. injection Ec as Ec. specialize (IH l eq_refl).
      assert (P : forall c, In c l -> showable c /\ forall d, inside_child_of d c -> showable d).
      { assert (A' : forall c, In c l' -> showable c /\ forall d, inside_child_of d c -> showable d).
        { intros c C. split; [apply A; eapply inside_child; [reflexivity|exact C]|]. intros d D. apply A. eapply inside_deeper; [reflexivity|exact C|exact D]. }
        clear A S1 S2 F0. revert l' Ec A'. induction IH as [|c l Hc IHl IHIH]; intros l' Ec A' d D; [destruct D|].
        destruct l' as [|c' l']; [discriminate|]. cbn [map] in Ec. injection Ec as E1 E2. cbn [flat_map] in F. apply Forall_app in F as [F1 F2]. destruct D as [<-|D].
        - destruct (A' c' (or_introl eq_refl)) as [A1 A2]. apply (Hc c' E1 A1 A2). intros s ->. exact F1.
        - eapply IHIH; [exact F2|exact E2| |exact D]. intros x X. apply A'. now right. }
      intros c C. inversion C as [? l0 ? El Hc|? l0 d ? El Hd Hc]; subst; cbn [s_children] in El; injection El as <-; [apply P; exact Hc|apply (P d Hd); exact Hc].
  - intros s' IH c E Sh In_ F. destruct c as [s| | |]; try discriminate. cbn [bare_kid] in E. injection E as E. specialize (F s' eq_refl).
    destruct (IH s E) as [A B]; [split; [exact Sh|intros c C; apply In_; now constructor]|exact F|]. split; [exact A|]. intros d D. inversion D; subst. now apply B.
  - intros a _ c E Sh In_ _. destruct c as [|a'| |]; try discriminate. injection E as ->. auto.
  - intros ls c E Sh In_ _. destruct c as [| |ls'|]; try discriminate. injection E as ->. auto.
  - intros e c E Sh In_ _. destruct c as [| | |e']; try discriminate. injection E as ->. auto.
Qed.

Lemma article_same x x' : bare_article x = bare_article x' -> (forall c, inside_article c x -> showable c) -> Forall sound (flat_map carriers (a_paragraphs x')) ->
  forall c, inside_article c x' -> showable c.
Proof.
  destruct x as [i t ps], x' as [i' t' ps']. unfold bare_article. cbn [a_identifier a_title a_paragraphs]. intros [= -> -> E] A F.
  assert (P : forall s, In s ps' -> all_showable s).
  { assert (A' : forall s, In s ps -> all_showable s).
    { intros s S. split; [apply A; now constructor|]. intros c C. apply A. now apply inside_paragraph_deeper with s. }
    clear A. revert ps E A'. induction ps' as [|s' ps' IH]; intros ps E A' s S; [destruct S|]. destruct ps as [|s0 ps]; [discriminate|]. cbn [map] in E. injection E as E1 E2.
    cbn [flat_map] in F. apply Forall_app in F as [F1 F2]. destruct S as [<-|S].
    - apply (proj1 sae_same s' s0 E1); [apply A'; now left|exact F1].
    - eapply IH; [exact F2|exact E2| |exact S]. intros x X. apply A'. now right. }
  intros c C. inversion C as [? p Hp|? p ? Hp Hc]; subst; cbn [a_paragraphs] in Hp; destruct (P p Hp); auto.
Qed.
Lemma act_same a a' : bare_act a = bare_act a' -> showable_act a -> Forall sound (carriers_of a') -> showable_act a'.
Proof.
  unfold bare_act, showable_act, carriers_of, act_articles. intros [= _ _ _ _ E]. revert E. generalize (act_children a), (act_children a'). intros l l'. revert l. induction l' as [|c' l' IH]; intros l E [A S] F.
  { split; [intros ? ? []|intros ? []]. }
  destruct l as [|c l]; [discriminate|]. cbn [map] in E. injection E as E1 E2. destruct (IH l E2) as [I1 I2].
  { split; [intros x d X; apply A; now right|intros e X; apply S; now right]. }
  { destruct c' as [e|x]; [exact F|]. cbn in F. apply Forall_app in F as [_ F]. exact F. }
  split.
  - intros x d [->|X]; [|now apply I1]. destruct c as [e|x0]; [discriminate|]. cbn [bare_child] in E1. injection E1 as E1. cbn in F. apply Forall_app in F as [F _].
    apply (article_same x0 x); auto; [unfold bare_article; congruence|]. intros c C. eapply A; [now left|exact C].
  - intros e [->|X]; [|now apply I2]. destruct c as [e0|x0]; [|discriminate]. cbn [bare_child] in E1. injection E1 as ->. apply S. now left.
Qed.

Theorem grammar_html a a' : built_act a -> unparsed_act a -> Forall rangeless (readings_of a) -> showable_act a ->
  add_semantics_to_act grammar_analyzer a = Ok a' -> exists file, html_file a' = Ok file.
Proof.
  intros B U R S H. apply html_total. apply (act_same a a'); [symmetry; eapply act_keeps; eauto|exact S|].
  apply Forall_forall. intros e E. unfold sound, links. destruct (m_outgoing (s_meta e)) as [refs|] eqn:O; [|split; constructor]. eapply grammar_positions; eauto.
Qed.
