From Coq Require Import Lia.
From Coq Require Import ZifyBool ZifyNat ZifyN.
From Verif Require Import PyBase PyBaseFacts IdModel LineModel DateModel RefModel RefSpec TreeModel TreeSpec TreeProofs StructModel HtmlModel HtmlSpec HtmlProofs HtmlProofs2 HtmlProofs3.
Local Open Scope Z_scope.

(** * What can be shown is shown *)

Lemma f_min_in l : l <> [] -> exists x, f_min l = Ok x /\ In x l.
Proof.
  destruct l as [|x l]; [congruence|]. intros _. eexists. split; [reflexivity|]. revert x. induction l as [|y l IH]; intros x; [now left|]. cbn [fold_left].
  specialize (IH (if f_ltb y x then y else x)). destruct IH as [IH|IH]; [|right; now right]. rewrite <- IH. destruct (f_ltb y x); [right; now left|now left].
Qed.
Lemma quoted_total cl ls : showable (ChQuoted ls) -> exists ns, html_quoted cl ls = Ok ns.
Proof.
  intros [(l0 & I0 & N0) D]. unfold html_quoted. destruct (f_min_in (map l_indent (List.filter not_empty_line ls))) as (off & -> & Off).
  { intros E. apply map_eq_nil in E. assert (X : In l0 (List.filter not_empty_line ls)) by (apply filter_In; auto). rewrite E in X. destruct X. }
  apply in_map_iff in Off as (m & <- & M). apply filter_In in M as [M _]. cbn [bind].
  assert (Q : forall k index, incl k ls -> exists ns, quoted_lines (l_indent m) (List.length ls) index k = Ok ns).
  { induction k as [|l k IH]; intros index In_; cbn [quoted_lines]; [eauto|]. unfold quoted_line. destruct (D l m) as (z & ->); [apply In_; now left|exact M|]. cbn [bind].
    destruct (IH (S index)) as (ns & ->); [intros x X; apply In_; now right|]. cbn [bind]. eauto. }
  destruct (Q ls 0%nat (incl_refl ls)) as (ns & ->). cbn [bind]. eauto.
Qed.
Lemma when_total o f : (forall x, exists n, f x = Ok n) -> exists ns, when o f = Ok ns.
Proof. intros F. unfold when. destruct (opt_true o) as [x|]; [|eauto]. destruct (F x) as (n & ->). cbn [bind]. eauto. Qed.
Lemma sae_text_total k r s t : good_positions (links s) -> exists n, sae_text k r (s_meta s) t = Ok n.
Proof. intros G. unfold sae_text. destruct (links_result (cls (sae_class k ++ u8 "_text")) t r (links s)) as [[_ X]|[N _]]; [exact X|contradiction]. Qed.
Lemma children_total cl r l : Forall (fun c => forall cl r, exists ns, html_child cl r c = Ok ns) l -> exists ns, html_children cl r l = Ok ns.
Proof. induction 1 as [|c l H F [ns IH]]; cbn; [eauto|]. destruct (H cl r) as (x & ->). cbn [bind]. fold (html_children cl r). rewrite IH. cbn [bind]. eauto. Qed.
Lemma saes_total r l : Forall (fun s => forall r, exists ns, html_sae r s = Ok ns) l -> exists ns, html_saes r l = Ok ns.
Proof. induction 1 as [|c l H F [ns IH]]; cbn; [eauto|]. destruct (H r) as (x & ->). cbn [bind]. fold (html_saes r). rewrite IH. cbn [bind]. eauto. Qed.

Lemma tree_total :
  (forall s, showable (ChSae s) -> (forall c, inside_sae c s -> showable c) -> forall r, exists ns, html_sae r s = Ok ns) /\
  (forall c, showable c -> (forall d, inside_child_of d c -> showable d) -> forall cl r, exists ns, html_child cl r c = Ok ns) /\
  (forall a, (forall c, inside_article c a -> showable c) -> forall r, exists ns, html_article r a = Ok ns).
Proof.
  apply tree_mut.
  - intros k i t n cs w m IH Sh In_ r.
    assert (C : forall cl r', s_children (mk_sae k i t n cs w m) <> None -> exists ns, opt_children cl r' cs = Ok ns).
    { intros cl r' N. cbn [s_children] in N. destruct cs as [l|]; [|congruence]. cbn [opt_children]. apply children_total. specialize (IH l eq_refl).
      apply Forall_forall. intros c Hc cl' r''. rewrite Forall_forall in IH. apply IH; [exact Hc| |].
      - apply In_. eapply inside_child; [reflexivity|exact Hc].
      - intros d D. apply In_. eapply inside_deeper; [reflexivity|exact Hc|exact D]. }
    destruct Sh as [Sh G]. cbn [s_children s_kind s_text] in *.
    destruct (match k with KBlockAmendmentContainer => true | _ => false end) eqn:K.
    + assert (k = KBlockAmendmentContainer) as -> by (destruct k; congruence). rewrite html_container.
      destruct (when_total n text_in_parentheses) as (x & ->); [intros y; unfold text_in_parentheses; eauto|]. cbn [bind].
      destruct (C (u8 "blockamendmentcontainer") EXTERNAL) as (y & ->); [destruct Sh as [Sh|[Sh _]]; congruence|]. cbn [bind].
      destruct (when_total w text_in_parentheses) as (z & ->); [intros y'; unfold text_in_parentheses; eauto|]. cbn [bind]. eauto.
    + assert (NK : k <> KBlockAmendmentContainer) by (destruct k; congruence). rewrite html_element by exact NK. cbv zeta.
      set (s := mk_sae k i t n cs w m) in *. specialize (G NK). change m with (s_meta s).
      destruct (opt_true t) as [x|] eqn:Ot.
      * destruct (sae_text_total k (place r s) s x G) as (y & ->). cbn [bind]. eauto.
      * destruct (when_total n (sae_text k (place r s) (s_meta s))) as (y & ->); [intros; now apply sae_text_total|]. cbn [bind].
        destruct (C (sae_class k) (place r s)) as (z & ->). { destruct Sh as [Sh|[_ (t' & -> & Nt)]]; [exact Sh|]. destruct t'; [congruence|discriminate]. } cbn [bind].
        destruct (when_total w (fun t => Ok (div (cls (sae_class k ++ u8 "_text")) t))) as (z' & ->); [eauto|]. cbn [bind]. eauto.
  - intros s IH Sh In_ cl r. cbn [html_child]. apply IH; auto. intros c C. apply In_. now constructor.
  - intros a IH _ In_ cl r. cbn [html_child]. apply IH. intros c C. apply In_. now constructor.
  - intros ls Sh _ cl r. cbn [html_child]. now apply quoted_total.
  - intros e (f & F) _ cl r. cbn [html_child]. unfold html_struct. rewrite F. cbn [bind]. eauto.
  - intros i t ps IH In_ r. rewrite html_article_eq. cbv zeta. destruct (when_total t (fun t => Ok (div (cls (u8 "article_title")) (u8 "[" ++ t ++ u8 "]")))) as (x & ->); [eauto|]. cbn [bind].
    match goal with |- exists ns, bind (html_saes ?r' ps) _ = Ok ns => destruct (saes_total r' ps) as (y & ->) end.
    { apply Forall_forall. intros s Hs r'. rewrite Forall_forall in IH. apply IH; [exact Hs| |].
      - apply In_. now constructor.
      - intros c C. apply In_. now apply inside_paragraph_deeper with s. }
    cbn [bind]. eauto.
Qed.
Theorem html_total a : showable_act a -> exists file, html_file a = Ok file.
Proof.
  intros [A E]. unfold html_file, html_tree, html_body.
  match goal with |- exists f, bind (bind (bind (mapM ?g ?l) _) _) _ = Ok f => assert (M : exists cs, mapM g l = Ok cs) end.
  { revert A E. generalize (act_children a). intros l. induction l as [|c l IH]; intros A E; cbn [mapM]; [eauto|].
    assert (H : exists x, match c with AArticle x => html_article EMPTY_REF x | AStruct e => html_struct e end = Ok x).
    { destruct c as [e|x]; [clear A|clear E].
      - destruct (E e (or_introl eq_refl)) as (f & F). unfold html_struct. rewrite F. cbn [bind]. eauto.
      - apply (proj2 (proj2 tree_total)). intros c C. eapply A; [now left|exact C]. }
    destruct H as (x & ->). cbn [bind]. destruct IH as (y & ->); [intros z c' Z; apply A; now right|intros e' Z; apply E; now right|]. cbn [bind]. eauto. }
  destruct M as (cs & ->). cbn [bind]. eauto.
Qed.
