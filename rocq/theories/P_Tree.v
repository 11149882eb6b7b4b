(* C25-C27: the act tree. *)
From Verif Require Import PyBase PyBaseFacts NumSpec IdModel IdSpec IdProofs LineModel DateModel RefModel RefSpec
  RefProofs RefProofs2 RefProofs3 TreeModel TreeSpec TreeProofs TreeProofs2 TreeProofs3.
Local Open Scope Z_scope.

(* an act with numbered and unnamed paragraphs, points of both kinds, subpoints, a quoted
   amendment and a structural element *)
Definition t_sub (i t : pystr) := mk_sae KAlphabeticSubpoint (Some i) (Some t) None None None NO_META.
Definition t_point (k : sae_kind) (i t : pystr) := mk_sae k (Some i) (Some t) None None None NO_META.
Definition t_apoint := t_point KAlphabeticPoint.
Definition t_art0 := mk_article (u8 "3") (Some (u8 "Cím"))
  [ mk_sae KParagraph (Some (u8 "1")) (Some (u8 "Egy.")) None None None NO_META;
    mk_sae KParagraph (Some (u8 "2")) None (Some (u8 "Bevezető:"))
      (Some [ ChSae (t_apoint (u8 "a") (u8 "első"));
              ChSae (mk_sae KAlphabeticPoint (Some (u8 "b")) None (Some (u8 "második"))
                       (Some [ChSae (t_sub (u8 "ba") (u8 "x")); ChSae (t_sub (u8 "bb") (u8 "y"))]) (Some (u8 "vége")) NO_META) ])
      None NO_META;
    mk_sae KParagraph (Some (u8 "2a")) None (Some (u8 "Módosul:"))
      (Some [ChSae (mk_sae KBlockAmendmentContainer None None None
                      (Some [ChSae (mk_sae KParagraph (Some (u8 "9")) (Some (u8 "Idézett.")) None None None NO_META);
                             ChArticle (mk_article (u8 "8") None [])])
                      None NO_META)])
      None NO_META ].
Definition t_art1 := mk_article (u8 "3/A") None
  [ mk_sae KParagraph None None (Some (u8 "Számok:"))
      (Some [ChSae (t_point KNumericPoint (u8 "1") (u8 "egy")); ChSae (t_point KNumericPoint (u8 "2") (u8 "kettő"))]) None NO_META ].
Definition t_id := u8 "2012. évi C. törvény".
Definition t_act := mk_act t_id (mk_date 2012 7 13) (u8 "Tárgy") []
  [AStruct (mk_struct KChapter (u8 "1") (u8 "Fejezet") false); AArticle t_art0; AArticle t_art1].
Definition t_ref (a p q s : rpart) := mk_ref (Some t_id) a p q s.

(* deciding that an element can be built *)
Fixpoint builtb (s : sae) : bool :=
  match s with
  | mk_sae k i t n cs w m =>
      (match new_sae k i t n cs w m with Ok _ => true | Err _ => false end) &&
      match cs with
      | None => true
      | Some l => (fix go (l : list child) : bool :=
                     match l with
                     | [] => true
                     | ChSae c :: r => builtb c && go r
                     | ChArticle (mk_article i t ps) :: r =>
                         (match new_article i t ps with Ok _ => true | Err _ => false end) &&
                         (fix gop (ps : list sae) : bool :=
                            match ps with [] => true | p :: q => builtb p && gop q end) ps && go r
                     | _ :: r => go r
                     end) l
      end
  end.
Lemma builtb_ok : forall s, builtb s = true -> built_sae s.
Proof.
  fix IH 1. intros [k i t n cs w m] H. cbn [builtb] in H. apply andb_prop in H as [H1 H2].
  destruct (new_sae k i t n cs w m) as [s|] eqn:E; [|discriminate]. pose proof E as E'.
  apply new_sae_ok in E' as [-> _]. apply (built_sae_intro k i t n cs w m); [|exact E]. clear H1 E.
  destruct cs as [l|]; [|intros cs c E; discriminate]. intros cs c E. injection E as <-. revert c H2.
  induction l as [|d l IHl]; [intros c _ []|]. intros c H2 [<-|Hc].
  - destruct d as [x|[ai at_ ps]| |]; [| |constructor|constructor].
    + apply andb_prop in H2 as [H2 _]. constructor. now apply IH.
    + apply andb_prop in H2 as [H2 _]. apply andb_prop in H2 as [H2 H3]. constructor.
      destruct (new_article ai at_ ps) as [a|] eqn:EA; [|discriminate]. pose proof EA as EA'.
      apply new_article_ok in EA' as [-> _]. apply (built_article_intro ai at_ ps); [|exact EA]. clear EA H2.
      induction ps as [|p ps IHp]; [intros p []|]. apply andb_prop in H3 as [H3 H4]. intros q [<-|Hq]; [now apply IH|auto].
  - apply IHl; [|exact Hc]. destruct d as [x|[ai at_ ps]| |]; try exact H2.
    + now apply andb_prop in H2.
    + now apply andb_prop in H2.
Qed.
Lemma t_built : built_act t_act.
Proof.
  intros x [E|[E|[E|[]]]]; [discriminate| |]; injection E as <-; (split; [|repeat constructor]).
  - apply (built_article_intro (u8 "3") (Some (u8 "Cím")) (a_paragraphs t_art0)); [|vm_compute; reflexivity].
    intros p Hp. apply builtb_ok. revert p Hp. apply forallb_forall. vm_compute. reflexivity.
  - apply (built_article_intro (u8 "3/A") None (a_paragraphs t_art1)); [|vm_compute; reflexivity].
    intros p Hp. apply builtb_ok. revert p Hp. apply forallb_forall. vm_compute. reflexivity.
Qed.

(** C25: what can be constructed.  Text excludes an introduction, children and a wrap-up;
    children are at least one, of one class (except in a block amendment), of an allowed class;
    nothing else is rejected. *)
Theorem C25_elements : forall k i t n cs w m s,
  new_sae k i t n cs w m = Ok s <-> s = mk_sae k i t n cs w m /\ well_formed s.
Proof. exact new_sae_ok. Qed.
Print Assumptions C25_elements.
Theorem C25_errors : forall k i t n cs w m e, new_sae k i t n cs w m = Err e ->
  (e = IndexError /\ cs = Some []) \/
  (e = ValueError /\ t <> None /\ ~ (n = None /\ cs = None /\ w = None)) \/
  (e = TypeError /\ exists l c, cs = Some l /\ In c l /\
     ((k <> KBlockAmendmentContainer /\ exists d, In d l /\ class_of c <> class_of d) \/ ~ may_contain k (class_of c))).
Proof. exact new_sae_errors. Qed.
Print Assumptions C25_errors.
Theorem C25_articles : forall i t ps,
  (forall a, new_article i t ps = Ok a <-> a = mk_article i t ps /\ article_well_formed a) /\
  (forall e, new_article i t ps = Err e -> e = ValueError).
Proof.
  intros i t ps. split; [intros a; apply new_article_ok|]. intros e. unfold new_article.
  destruct (_ && _); intros H; inversion H. reflexivity.
Qed.
Print Assumptions C25_articles.
(* the same holds at every depth of whatever exists *)
Theorem C25_everywhere : forall s, built_sae s ->
  well_formed s /\ forall c, inside_sae c s ->
    match c with ChSae x => well_formed x | ChArticle a => article_well_formed a | _ => True end.
Proof.
  intros s B. split; [apply (built_local s B)|]. intros c I. apply (proj1 built_inside) in I; [|exact B].
  inversion I; subst; auto; [now apply built_local|now apply built_article_local].
Qed.
Print Assumptions C25_everywhere.
Example C25_ex : built_act t_act /\
  new_sae KParagraph (Some (u8 "1")) None None (Some [ChSae (t_apoint (u8 "a") (u8 "x")); ChSae (t_point KNumericPoint (u8 "1") (u8 "y"))]) None NO_META
    = Err TypeError /\
  new_sae KParagraph (Some (u8 "1")) (Some (u8 "x")) None (Some [ChSae (t_apoint (u8 "a") (u8 "x"))]) None NO_META = Err ValueError /\
  new_sae KNumericPoint (Some (u8 "1")) None None (Some [ChSae (t_apoint (u8 "a") (u8 "x"))]) None NO_META = Err TypeError /\
  new_sae KParagraph (Some (u8 "1")) None None (Some []) None NO_META = Err IndexError.
Proof. split; [exact t_built|]. repeat split; vm_compute; reflexivity. Qed.
(* An element with neither text nor children can be constructed, so "text or children" is no
   invariant. *)
Theorem C25_text_or_children_refuted : exists s, built_sae s /\ s_text s = None /\ s_children s = None.
Proof.
  exists (mk_sae KParagraph (Some (u8 "1")) None None None None NO_META). split; [apply builtb_ok; reflexivity|auto].
Qed.
Print Assumptions C25_text_or_children_refuted.

(** C26 *)
Theorem C26_finds : forall a r c, built_act a -> unique_identifiers a ->
  located a r c -> act_at_reference a r = Ok [c].
Proof. exact at_reference_complete. Qed.
Print Assumptions C26_finds.
Theorem C26_finds_or_raises : forall a r, built_act a -> unique_identifiers a -> single_reference a r ->
  (exists c, act_at_reference a r = Ok [c] /\ located a (absolute a r) c) \/
  (act_at_reference a r = Err KeyError /\ forall c, ~ located a (absolute a r) c).
Proof. exact at_reference_exact. Qed.
Print Assumptions C26_finds_or_raises.
(* without unique identifiers, what is found is still at the place asked for *)
Theorem C26_sound : forall a r l, built_act a -> single_reference a r ->
  act_at_reference a r = Ok l -> exists c, l = [c] /\ located a (absolute a r) c.
Proof. exact at_reference_sound. Qed.
Print Assumptions C26_sound.
Theorem C26_article_range : forall a lo hi, decimal_id lo -> decimal_id hi ->
  (forall x, In (AArticle x) (act_children a) -> decimal_id (a_identifier x)) ->
  exists l, act_at_reference a (mk_ref (Some (act_identifier a)) (RRange lo hi) RNone RNone RNone) = Ok (map ChArticle l) /\
    picks (fun x => between lo (a_identifier x) hi) (act_articles a) l.
Proof. exact article_range. Qed.
Print Assumptions C26_article_range.
Theorem C26_paragraph_range : forall a x lo hi,
  built_act a -> unique_identifiers a -> In (AArticle x) (act_children a) ->
  decimal_id lo -> decimal_id hi ->
  (forall p i, In p (a_paragraphs x) -> s_identifier p = Some i -> decimal_id i) ->
  exists l, act_at_reference a (mk_ref (Some (act_identifier a)) (RId (a_identifier x)) (RRange lo hi) RNone RNone) = Ok (map ChSae l) /\
    picks (fun p => id_between lo hi (s_identifier p)) (a_paragraphs x) l.
Proof. intros a x lo hi. apply paragraph_range. Qed.
Print Assumptions C26_paragraph_range.
Theorem C26_point_range : forall a x p cs lo hi,
  built_act a -> unique_identifiers a -> In (AArticle x) (act_children a) ->
  In p (a_paragraphs x) -> s_children p = Some cs -> decimal_id lo -> decimal_id hi ->
  (forall c i, In c cs -> child_identifier c = Some i -> decimal_id i) ->
  exists l, act_at_reference a (mk_ref (Some (act_identifier a)) (RId (a_identifier x)) (opt_part (s_identifier p)) (RRange lo hi) RNone) = Ok l /\
    picks (fun c => id_between lo hi (child_identifier c)) cs l.
Proof. intros a x p cs lo hi. apply point_range. Qed.
Print Assumptions C26_point_range.
Theorem C26_subpoint_range : forall a x p cs q ds lo hi i,
  built_act a -> unique_identifiers a -> In (AArticle x) (act_children a) ->
  In p (a_paragraphs x) -> s_children p = Some cs -> In (ChSae q) cs ->
  s_kind q = KNumericPoint \/ s_kind q = KAlphabeticPoint -> s_identifier q = Some i -> s_children q = Some ds ->
  decimal_id lo -> decimal_id hi ->
  (forall c i, In c ds -> child_identifier c = Some i -> decimal_id i) ->
  exists l, act_at_reference a (mk_ref (Some (act_identifier a)) (RId (a_identifier x)) (opt_part (s_identifier p)) (RId i) (RRange lo hi)) = Ok l /\
    picks (fun c => id_between lo hi (child_identifier c)) ds l.
Proof. exact subpoint_range. Qed.
Print Assumptions C26_subpoint_range.
Lemma t_unique : unique_identifiers t_act.
Proof.
  constructor.
  - intros x y [E|[E|[E|[]]]] [F|[F|[F|[]]]]; try discriminate; injection E as <-; injection F as <-; auto; discriminate.
  - intros x p q [E|[E|[E|[]]]]; try discriminate; injection E as <-.
    + intros [<-|[<-|[<-|[]]]] [<-|[<-|[<-|[]]]]; auto; discriminate.
    + intros [<-|[]] [<-|[]]; auto.
  - intros x p [E|[E|[E|[]]]]; try discriminate; injection E as <-.
    + intros [<-|[<-|[<-|[]]]] cs Ec c d; try discriminate; injection Ec as <-.
      * intros [<-|[<-|[]]] [<-|[<-|[]]]; auto; discriminate.
      * intros [<-|[]] [<-|[]]; auto.
    + intros [<-|[]] cs Ec c d; injection Ec as <-. intros [<-|[<-|[]]] [<-|[<-|[]]]; auto; discriminate.
  - intros x p cs c [E|[E|[E|[]]]]; try discriminate; injection E as <-.
    + intros [<-|[<-|[<-|[]]]] Ec; try discriminate; injection Ec as <-.
      * intros [E|[E|[]]]; injection E as <-; intros _ ds Ed d e; [discriminate|]. injection Ed as <-.
        intros [<-|[<-|[]]] [<-|[<-|[]]]; auto; discriminate.
      * intros [E|[]]; injection E as <-; intros [K|K]; discriminate.
    + intros [<-|[]] Ec; injection Ec as <-. intros [E|[E|[]]]; injection E as <-; intros _ ds Ed; discriminate.
Qed.
Example C26_ex : built_act t_act /\ unique_identifiers t_act /\
  act_at_reference t_act (t_ref (RId (u8 "3")) (RId (u8 "2")) (RId (u8 "b")) (RId (u8 "bb"))) = Ok [ChSae (t_sub (u8 "bb") (u8 "y"))] /\
  act_at_reference t_act (t_ref (RId (u8 "3/A")) RNone (RId (u8 "2")) RNone) = Ok [ChSae (t_point KNumericPoint (u8 "2") (u8 "kettő"))] /\
  act_at_reference t_act (t_ref (RId (u8 "3/A")) RNone (RRange (u8 "1") (u8 "5")) RNone)
    = Ok [ChSae (t_point KNumericPoint (u8 "1") (u8 "egy")); ChSae (t_point KNumericPoint (u8 "2") (u8 "kettő"))] /\
  act_at_reference t_act (t_ref (RId (u8 "3")) (RId (u8 "2")) (RId (u8 "c")) RNone) = Err KeyError.
Proof. split; [exact t_built|]. split; [exact t_unique|]. repeat split; vm_compute; reflexivity. Qed.
(* A subpoint given without a point, and anything given below a paragraph range, is ignored. *)
Theorem C26_ignored_parts_refuted :
  (exists a r l, built_act a /\ unique_identifiers a /\ r_subpoint r <> RNone /\
     act_at_reference a r = Ok l /\ act_at_reference a (mk_ref (r_act r) (r_article r) (r_paragraph r) RNone RNone) = Ok l) /\
  (forall a x lo hi pt sp, built_act a -> unique_identifiers a -> In (AArticle x) (act_children a) ->
     act_at_reference a (mk_ref (Some (act_identifier a)) (RId (a_identifier x)) (RRange lo hi) pt sp) =
     act_at_reference a (mk_ref (Some (act_identifier a)) (RId (a_identifier x)) (RRange lo hi) RNone RNone)).
Proof.
  split.
  - exists t_act, (t_ref (RId (u8 "3")) (RId (u8 "1")) RNone (RId (u8 "q"))). eexists.
    split; [exact t_built|]. split; [exact t_unique|]. split; [discriminate|]. split; vm_compute; reflexivity.
  - intros a x lo hi pt sp _ _ _. reflexivity.
Qed.
Print Assumptions C26_ignored_parts_refuted.

(** C27 *)
(* the modifier is called at exactly the chosen places, in document order, a parent before (or
   with children_first after) what is below it *)
Theorem C27_visits : forall T (m : modifier T) f children_first fuel a st a' st' log,
  keeps_place m -> built_act a -> good_filter a f ->
  map_saes fuel a (logged m) f children_first (st, []) = Ok (a', (st', log)) ->
  picks (chosen_by f) (map fst (act_nodes (negb children_first) a)) log.
Proof. intros T m f cf fuel a st a' st' log. apply act_visits. Qed.
Print Assumptions C27_visits.
(* the result: the function applied at the chosen places, everything else as it was *)
Theorem C27_result : forall f flt children_first a, own_data_only f -> built_act a -> good_filter a flt ->
  exists n, forall fuel, (n <= fuel)%nat -> exists b, map_saes fuel a (pure f) flt children_first tt = Ok (b, tt) /\
    mapped_act f (chosen_by flt) (negb children_first) a b.
Proof. exact act_result. Qed.
Print Assumptions C27_result.
Theorem C27_identity : forall flt children_first a, built_act a -> good_filter a flt ->
  exists n, forall fuel, (n <= fuel)%nat -> map_saes fuel a (pure (fun _ s => s)) flt children_first tt = Ok (a, tt).
Proof. exact act_identity. Qed.
Print Assumptions C27_identity.
Definition t_mark : modifier unit := fun _ s st =>
  Ok (mk_sae (s_kind s) (s_identifier s) (s_text s) (s_intro s) (s_children s) (s_wrap_up s) (mk_meta None None (Some [])), st).
Definition t_filter := t_ref (RId (u8 "3")) (RRange (u8 "2") (u8 "2a")) RNone RNone.
Example C27_ex : keeps_place t_mark /\ good_filter t_act (Some t_filter) /\
  (r <- map_saes 9 t_act (logged t_mark) (Some t_filter) true (tt, []) ;; Ok (snd (snd r))) =
  Ok [ t_ref (RId (u8 "3")) (RId (u8 "2")) (RId (u8 "a")) RNone;
       t_ref (RId (u8 "3")) (RId (u8 "2")) (RId (u8 "b")) (RId (u8 "ba"));
       t_ref (RId (u8 "3")) (RId (u8 "2")) (RId (u8 "b")) (RId (u8 "bb"));
       t_ref (RId (u8 "3")) (RId (u8 "2")) (RId (u8 "b")) RNone;
       t_ref (RId (u8 "3")) (RId (u8 "2")) RNone RNone;
       t_ref (RId (u8 "3")) (RId (u8 "2a")) RNone RNone ].
Proof.
  split; [intros r s st s' st' [= <- <-]; auto|]. split; [|vm_compute; reflexivity].
  split; [|split; [discriminate|]].
  - split; [apply canonicalb_ok; vm_compute; reflexivity|].
    exists [t_id; u8 "3"], (u8 "2"), (u8 "2a"). split.
    + apply (di_range [t_id; u8 "3"] (u8 "2") (u8 "2a") [RNone; RNone]). repeat constructor.
    + apply not_after_iff; [apply canonical_idb_ok; reflexivity|apply canonical_idb_ok; reflexivity|vm_compute; reflexivity].
  - split.
    + intros x Hx. apply canonicalb_ok. apply act_articles_in in Hx. revert x Hx.
      apply (proj1 (forallb_forall (fun x => canonicalb (article_place t_act x)) (act_articles t_act))).
      vm_compute. reflexivity.
    + intros b r s H. apply canonicalb_ok. apply (in_map fst) in H. cbn [fst] in H. revert r H. apply forallb_forall.
      destruct b; vm_compute; reflexivity.
Qed.
(* With a filter that has a gap (a point of an article without numbered paragraphs) the modifier is
   also called at every point of the article's numbered paragraphs. *)
Theorem C27_gap_refuted : exists a f log, built_act a /\ r_point f = RId (u8 "a") /\
  map_saes 9 a (logged t_mark) (Some f) false (tt, []) = Ok log /\
  In (t_ref (RId (u8 "3")) (RId (u8 "2")) (RId (u8 "b")) (RId (u8 "bb"))) (snd (snd log)).
Proof.
  exists t_act, (t_ref (RId (u8 "3")) RNone (RId (u8 "a")) RNone).
  eexists. split; [exact t_built|]. split; [reflexivity|]. split; [vm_compute; reflexivity|].
  vm_compute. tauto.
Qed.
Print Assumptions C27_gap_refuted.
