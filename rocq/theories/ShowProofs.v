From Coq Require Import Lia.
From Coq Require Import ZifyBool ZifyNat ZifyN.
From Verif Require Import PyBase PyBaseFacts IdModel LineModel DateModel RefModel TreeModel TreeSpec NumModel NumProofs StructModel GazModel HtmlModel HtmlSpec HtmlProofs HtmlProofs2 HtmlProofs3 TxtModel TxtSpec TxtProofs TxtProofs2 SemModel SemSpec ShowSpec.
Local Open Scope Z_scope.

(** * The identifiers of structural elements can be shown *)

Lemma roman_shown s i : roman_to_arabic_with_postfix s = Ok i -> exists f, arabic_to_roman_with_postfix i = Ok f.
Proof.
  unfold roman_to_arabic_with_postfix. intros E. destruct (with_postfix_spec s) as (a & p & _ & _ & _ & H). destruct a as [|c a].
  - rewrite H in E. discriminate.
  - destruct H as (v & V & H). rewrite H in E. cbn [bind] in E. injection E as <-. unfold arabic_to_roman_with_postfix, number_finder.
    rewrite str_of_int_nonneg by lia. set (g := take_while is_ascii_digit (dec_N (Z.to_N v) ++ p)).
    assert (G : ascii_digits g /\ g <> []).
    { split.
      - pose proof (take_while_forall is_ascii_digit (dec_N (Z.to_N v) ++ p)) as A. rewrite forallb_forall in A. apply Forall_forall. intros x X. apply is_ascii_digit_range. now apply A.
      - unfold g. destruct (dec_N (Z.to_N v)) as [|d t] eqn:D; [now apply dec_N_nonempty in D|]. pose proof (forallb_ascii _ (dec_N_digits (Z.to_N v))) as A. rewrite D in A. cbn in A. apply andb_prop in A as [A _].
        cbn. rewrite A. discriminate. }
    destruct G as [G1 G2]. destruct g as [|d g']; [congruence|]. rewrite (py_int_digits _ G1 G2). cbn [bind]. rewrite int_to_text_roman_pos by lia. eexists. reflexivity.
Qed.
Lemma ordinal_shown s n : text_to_int_hun s = Ok n -> exists t, py_int (str_of_int n) = Ok n /\ int_to_text_hun n = Ok t.
Proof.
  intros E. destruct (text_to_int_hun_cases s) as [(i & R & _ & E')|[_ E']].
  - assert (n = i) as -> by congruence. exists (ordinal i). split; [apply py_int_str_of_int; lia|now apply int_to_text_hun_in].
  - congruence.
Qed.
Lemma extract_shown k l i t : struct_extract k l = Ok (Some i) -> index_str (l_content l) special_parts = None \/ k <> KPart -> exists f, formatted_identifier (mk_struct k i t false) = Ok f.
Proof.
  intros E N. unfold struct_extract in E. assert (E' : exists g, identifier_from_string k g = Ok i).
  { assert (R : match struct_regex k (l_content l) with None => Ok None | Some g => match identifier_from_string k g with Ok i => Ok (Some i) | Err e => if is_value_error e then Ok None else Err e end end = Ok (Some i)).
    { destruct k; auto. destruct N as [N|N]; [|congruence]. now rewrite N in E. }
    destruct (struct_regex k (l_content l)) as [g|]; [|discriminate]. exists g. destruct (identifier_from_string k g) as [j|e]; [congruence|]. destruct (is_value_error e); discriminate. }
  destruct E' as [g E']. unfold formatted_identifier. cbn [se_kind se_identifier se_special]. destruct k; cbn [identifier_from_string] in E'.
  - apply bind_ok in E' as (n & H & E'). injection E' as <-. destruct (ordinal_shown _ _ H) as (x & -> & E1). cbn [bind]. rewrite E1. eexists. reflexivity.
  - apply bind_ok in E' as (n & H & E'). injection E' as <-. destruct (ordinal_shown _ _ H) as (x & -> & E1). cbn [bind]. rewrite E1. eexists. reflexivity.
  - destruct (roman_shown _ _ E') as [f ->]. eexists. reflexivity.
  - destruct (roman_shown _ _ E') as [f ->]. eexists. reflexivity.
  - destruct i; eexists; reflexivity.
Qed.
Lemma struct_shown k ls e : struct_parse k ls = Ok e -> exists f, formatted_identifier e = Ok f.
Proof.
  destruct ls as [|l ls]; [discriminate|]. cbn [struct_parse]. set (plain := (i <- struct_extract k l ;; _)). intros E.
  assert (Q : plain = Ok e -> index_str (l_content l) special_parts = None \/ k <> KPart -> exists f, formatted_identifier e = Ok f).
  { unfold plain. intros P N. apply bind_ok in P as ([i|] & H & P); [|discriminate]. injection P as <-. exact (extract_shown _ _ _ _ H N). }
  destruct k; try (apply Q; [exact E|right; discriminate]).
  - destruct (index_str (l_content l) special_parts) as [n|] eqn:N; [|apply Q; auto]. injection E as <-. unfold formatted_identifier. cbn [se_kind se_identifier se_special].
    rewrite py_int_str_of_int by lia. cbn [bind]. assert (n < 3)%nat.
    { revert N. unfold special_parts. cbn [index_str]. repeat (destruct (str_eqb _ _); [cbn; intros [= <-]; lia|]). discriminate. }
    destruct n as [|[|[|n]]]; [eexists; reflexivity..|lia].
  - clear Q plain. apply bind_ok in E as ([i|] & H & E).
    + apply bind_ok in E as (t & _ & E). injection E as <-. apply (extract_shown _ l); [exact H|right; discriminate].
    + injection E as <-. eexists. reflexivity.
Qed.

(** * Plain text *)
Section Shown.
Variable w : wrapper.
Variable width : Z.
Hypothesis Sp : splits w.
Hypothesis W : 0 < width.

Definition ok {A} (r : res A) : Prop := exists x, r = Ok x.
Lemma ok_bind {A B} (r : res A) (f : A -> res B) : ok (x <- r ;; f x) <-> exists x, r = Ok x /\ ok (f x).
Proof.
  split.
  - intros [y H]. apply bind_ok in H as (x & E & H). exists x. split; [exact E|]. exists y. exact H.
  - intros (x & -> & y & H). exists y. exact H.
Qed.
Lemma ok_both {A B C} (r : res A) (s : res B) (f : A -> B -> C) : ok (x <- r ;; y <- s ;; Ok (f x y)) <-> ok r /\ ok s.
Proof.
  rewrite ok_bind. split.
  - intros (x & E & H). apply ok_bind in H as (y & E' & _). split; eexists; eauto.
  - intros [[x E] [y E']]. exists x. split; [exact E|]. apply ok_bind. exists y. split; [exact E'|]. eexists; reflexivity.
Qed.
Lemma print_ok s indent : ok (wrapped_print w s indent width) <-> Z.of_nat (List.length indent) < width.
Proof.
  unfold wrapped_print. destruct (Z.eqb_spec width 0); [lia|]. destruct (wrap_spec w s (width - Z.of_nat (List.length indent)) Sp) as [[L ->]|(L & lines & -> & _)].
  - split; [intros [x H]; discriminate|lia].
  - split; [lia|]. intros _. eexists. reflexivity.
Qed.
Lemma when_ok o f : ok (when_print o f) <-> (forall x, o = Some x -> x <> [] -> ok (f x)).
Proof.
  unfold when_print. destruct o as [[|c t]|]; cbn [opt_true].
  - split; [congruence|]. intros _. eexists; reflexivity.
  - split; [intros H x [= <-] _; exact H|]. intros H. apply H; [reflexivity|discriminate].
  - split; [discriminate|]. intros _. eexists; reflexivity.
Qed.
Lemma when_printed o f indent : (forall x, f x = wrapped_print w (o x) indent width) -> forall s, ok (when_print s f) <-> (nonempty s -> Z.of_nat (List.length indent) < width).
Proof.
  intros F s. rewrite when_ok. unfold nonempty. destruct s as [[|c t]|]; cbn [opt_string].
  - split; [congruence|]. intros _ x [= <-]. congruence.
  - split.
    + intros H _. specialize (H _ eq_refl ltac:(discriminate)). rewrite F in H. now apply print_ok in H.
    + intros H x [= <-] _. rewrite F. apply print_ok, H. discriminate.
  - split; [congruence|]. discriminate.
Qed.
Lemma blanks_length i : List.length (blanks i) = List.length i.
Proof. unfold blanks, spaces. apply repeat_length. Qed.
Lemma pad_length n s : List.length (pad n s) = Nat.max n (List.length s).
Proof. unfold pad, spaces. rewrite app_length, repeat_length. lia. Qed.
Lemma struct_ok indent e : ok (txt_struct w width indent e) <-> Z.of_nat (List.length indent) < width /\ exists f, formatted_identifier e = Ok f.
Proof.
  unfold txt_struct. rewrite ok_bind. split.
  - intros (f & E & H). split; [|eauto]. destruct (se_kind e); try (apply print_ok in H; exact H);
      (apply ok_bind in H as (a & Ea & _); eapply print_ok; exists a; exact Ea).
  - intros (L & f & E). exists f. split; [exact E|].
    assert (P : ok (a <- wrapped_print w f indent width ;; b <- match se_title e with [] => Ok [] | t => wrapped_print w t (blanks indent) width end ;; Ok (a ++ b))).
    { apply ok_both. split; [now apply print_ok|]. destruct (se_title e); [eexists; reflexivity|]. apply print_ok. now rewrite blanks_length. }
    destruct (se_kind e); try exact P. now apply print_ok.
Qed.
Lemma mapM_ok {A B} (f : A -> res B) l : ok (mapM f l) <-> forall x, In x l -> ok (f x).
Proof.
  induction l as [|x l IH]; cbn [mapM].
  - split; [intros _ x []|]. intros _. eexists; reflexivity.
  - rewrite ok_bind. split.
    + intros (y & E & H) z [<-|Z]; [exists y; exact E|]. apply ok_bind in H as (ys & Es & _). apply IH; [exists ys; exact Es|exact Z].
    + intros H. destruct (H x (or_introl eq_refl)) as [y E]. exists y. split; [exact E|]. apply ok_bind. destruct (proj2 IH (fun z Z => H z (or_intror Z))) as [ys Es]. exists ys. split; [exact Es|]. eexists; reflexivity.
Qed.
Lemma quoted_ok indent ls : ok (txt_quoted indent ls) <-> quote_fits ls.
Proof.
  unfold txt_quoted, quote_fits. rewrite ok_bind. split; intros (base & E & H); exists base; (split; [exact E|]).
  - intros l I. apply ok_bind in H as (rows & R & _). assert (Q : ok (quoted_rows base (blanks indent) ls)) by (exists rows; exact R). apply mapM_ok with (x := l) in Q; [|exact I].
    apply ok_bind in Q as (i & Q & _). unfold rel_indent in Q. apply bind_ok in Q as (n & Q & _). exists n. exact Q.
  - apply ok_bind. assert (Q : ok (quoted_rows base (blanks indent) ls)).
    { apply mapM_ok. intros l I. destruct (H l I) as [n N]. unfold rel_indent. rewrite N. cbn [bind]. eexists; reflexivity. }
    destruct Q as [rows R]. exists rows. split; [exact R|]. eexists; reflexivity.
Qed.

Definition shown_child (c : child) : Prop := forall indent, ok (txt_child w width indent c) <-> forall n d, prints c n d -> fits width (List.length indent + n) d.
Definition shown_sae (s : sae) : Prop := shown_child (ChSae s).
Definition shown_article (a : article) : Prop := shown_child (ChArticle a).
Definition room (len : nat) (l : list child) : Prop := forall c n d, In c l -> prints c n d -> fits width (len + n) d.
Lemma room_cons len c l : room len (c :: l) <-> (forall n d, prints c n d -> fits width (len + n) d) /\ room len l.
Proof.
  split.
  - intros H. split; [intros n d; apply H; now left|]. intros e n d I. apply H. now right.
  - intros [H1 H2] e n d [<-|I]; [apply H1|now apply (H2 e)].
Qed.
Lemma room_nil len : room len []. Proof. intros c n d []. Qed.
Lemma all_ok l : Forall shown_child l -> forall indent, ok (txt_all w width indent l) <-> room (List.length indent) l.
Proof.
  induction 1 as [|c l H F IH]; intros indent; cbn [txt_all].
  - split; [intros _; apply room_nil|]. intros _. eexists; reflexivity.
  - rewrite ok_both, room_cons. fold (txt_all w width indent). now rewrite (H indent), (IH indent).
Qed.
Lemma seq_ok l : Forall shown_child l -> forall indent, ok (txt_seq w width indent l) <-> room (List.length indent) l.
Proof.
  induction 1 as [|c l H F IH]; intros indent; cbn [txt_seq].
  - split; [intros _; apply room_nil|]. intros _. eexists; reflexivity.
  - rewrite ok_both, room_cons. fold (txt_seq w width). rewrite (H indent), (IH (blanks indent)), blanks_length. reflexivity.
Qed.
Lemma paragraphs_ok l : Forall shown_sae l -> forall indent, ok (txt_paragraphs w width indent l) <-> room (List.length indent) (map ChSae l).
Proof.
  induction 1 as [|c l H F IH]; intros indent; cbn [txt_paragraphs map].
  - split; [intros _; apply room_nil|]. intros _. eexists; reflexivity.
  - rewrite ok_both, room_cons. fold (txt_paragraphs w width). rewrite (IH (blanks indent)), blanks_length. pose proof (H indent) as H'. cbn [txt_child] in H'. now rewrite H'.
Qed.
Lemma prints_sae s n d : prints (ChSae s) n d <-> (n = 0%nat /\ d = ChSae s) \/ (~ has_text s /\ exists cs c m, s_children s = Some cs /\ In c cs /\ prints c m d /\ n = (label_width s + m)%nat).
Proof.
  split.
  - intros P. inversion P as [|s' cs c m d' T C I P'|]; subst; [now left|]. right. split; [exact T|]. exists cs, c, m. auto.
  - intros [[-> ->]|(T & cs & c & m & C & I & P & ->)]; [constructor|econstructor; eauto].
Qed.
Lemma prints_article a n d : prints (ChArticle a) n d <-> (n = 0%nat /\ d = ChArticle a) \/ exists p m, In p (a_paragraphs a) /\ prints (ChSae p) m d /\ n = (article_width a + m)%nat.
Proof.
  split.
  - intros P. inversion P as [| |a' p m d' I P']; subst; [now left|]. right. exists p, m. auto.
  - intros [[-> ->]|(p & m & I & P & ->)]; [constructor|econstructor; eauto].
Qed.
(* an element and the elements in it *)
Lemma fits_sae len s : (forall n d, prints (ChSae s) n d -> fits width (len + n) d) <->
  fits width len (ChSae s) /\ (~ has_text s -> forall cs, s_children s = Some cs -> room (len + label_width s) cs).
Proof.
  split.
  - intros H. split; [rewrite <- (Nat.add_0_r len); apply H; constructor|]. intros T cs C c n d I P. rewrite <- Nat.add_assoc. apply H. econstructor; eauto.
  - intros [H1 H2] n d P. apply prints_sae in P as [[-> ->]|(T & cs & c & m & C & I & P & ->)]; [now rewrite Nat.add_0_r|]. rewrite Nat.add_assoc. exact (H2 T cs C c m d I P).
Qed.
Lemma fits_article len a : (forall n d, prints (ChArticle a) n d -> fits width (len + n) d) <->
  fits width len (ChArticle a) /\ room (len + article_width a) (map ChSae (a_paragraphs a)).
Proof.
  split.
  - intros H. split; [rewrite <- (Nat.add_0_r len); apply H; constructor|]. intros c n d I P. apply in_map_iff in I as (p & <- & I). rewrite <- Nat.add_assoc. apply H. econstructor; eauto.
  - intros [H1 H2] n d P. apply prints_article in P as [[-> ->]|(p & m & I & P & ->)]; [now rewrite Nat.add_0_r|]. rewrite Nat.add_assoc. exact (H2 (ChSae p) m d (in_map _ _ _ I) P).
Qed.
Lemma fits_leaf len c : (forall n d, prints c n d -> n = 0%nat /\ d = c) -> (forall n d, prints c n d -> fits width (len + n) d) <-> fits width len c.
Proof.
  intros L. split.
  - intros H. rewrite <- (Nat.add_0_r len). apply H. constructor.
  - intros H n d P. destruct (L n d P) as [-> ->]. now rewrite Nat.add_0_r.
Qed.
Lemma header_length k i : k <> KBlockAmendmentContainer -> List.length (txt_header k i) = Nat.max 5 (List.length (txt_label k i)).
Proof. intros K. unfold txt_header, txt_label. destruct i as [[|c i]|]; cbn [opt_true]; [reflexivity| |reflexivity]. apply pad_length. Qed.

Theorem tree_shown : (forall s, shown_sae s) /\ (forall c, shown_child c) /\ (forall a, shown_article a).
Proof.
  apply tree_mut.
  - intros k i t n cs w' m H indent. cbn [txt_child]. rewrite fits_sae. destruct (sae_kind_eqb k KBlockAmendmentContainer) eqn:K.
    + assert (k = KBlockAmendmentContainer) as -> by (destruct k; try discriminate; reflexivity). rewrite txt_container. unfold fits, has_text, text_column, label_width. cbn [s_kind s_text s_intro s_wrap_up s_children].
      set (nt := ~ (KBlockAmendmentContainer <> KBlockAmendmentContainer /\ nonempty t)). assert (NT : nt) by (intros [X _]; now apply X).
      rewrite ok_bind. unfold parenthesized. rewrite Nat.add_0_r.
      assert (P : forall s, ok (when_print s (fun t => wrapped_print w (u8 "(" ++ t ++ u8 ")") indent width)) <-> (nonempty s -> Z.of_nat (List.length indent) < width)) by (apply (when_printed (fun t => u8 "(" ++ t ++ u8 ")") _ indent); reflexivity).
      assert (L5 : List.length (indent ++ spaces 5) = (List.length indent + 5)%nat) by (rewrite app_length; reflexivity).
      split.
      * intros (a & Ea & E). apply ok_bind in E as (b & Eb & E). apply ok_bind in E as (c & Ec & _). destruct cs as [l|]; [|discriminate].
        pose proof (proj1 (P n) (ex_intro _ a Ea)) as Pa. pose proof (proj1 (P w') (ex_intro _ c Ec)) as Pc.
        pose proof (proj1 (all_ok l (H l eq_refl) _) (ex_intro _ b Eb)) as R. rewrite L5 in R. split; [split; [discriminate|]|].
        -- intros [[X _]|[X|X]]; [now destruct X|auto|auto].
        -- intros _ cs [= <-]. exact R.
      * intros [[C N] R]. destruct cs as [l|]; [|destruct (C NT eq_refl)]. specialize (R NT l eq_refl).
        destruct (proj2 (P n)) as [a Ea]; [auto|]. destruct (proj2 (P w')) as [c Ec]; [auto|]. destruct (proj2 (all_ok l (H l eq_refl) (indent ++ spaces 5))) as [b Eb]; [rewrite L5; exact R|].
        exists a. split; [exact Ea|]. apply ok_bind. exists b. split; [exact Eb|]. apply ok_bind. exists c. split; [exact Ec|]. eexists; reflexivity.
    + assert (K' : k <> KBlockAmendmentContainer) by (intros ->; discriminate). rewrite txt_element by auto. cbn zeta. set (ind := indent ++ txt_header k i).
      assert (HT : has_text (mk_sae k i t n cs w' m) <-> nonempty t) by (unfold has_text; cbn; tauto).
      assert (LW : label_width (mk_sae k i t n cs w' m) = Nat.max 5 (List.length (txt_label k i))) by (unfold label_width; cbn; destruct k; congruence).
      assert (TC : text_column (mk_sae k i t n cs w' m) = Nat.max 5 (List.length (txt_label k i))) by (rewrite <- LW; unfold text_column; cbn; destruct k; congruence).
      unfold fits. rewrite TC, LW. cbn [s_intro s_wrap_up s_children]. assert (LI : List.length ind = (List.length indent + Nat.max 5 (List.length (txt_label k i)))%nat) by (unfold ind; rewrite app_length, header_length; auto).
      rewrite <- LI. clearbody ind. clear LI TC LW K.
      assert (OT : (exists x, opt_true t = Some x /\ nonempty t) \/ (opt_true t = None /\ ~ nonempty t)).
      { unfold nonempty. destruct t as [[|z t]|]; cbn; [right; split; auto|left; eexists; split; [reflexivity|discriminate]|right; split; auto]. }
      destruct OT as [(x & -> & T)|[-> T]].
      * rewrite print_ok. split.
        -- intros L. split; [split; [|intros _; exact L]|]; intros N; now destruct (N (proj2 HT T)).
        -- intros [[_ L] _]. apply L. left. now apply HT.
      * assert (NT : ~ has_text (mk_sae k i t n cs w' m)) by (rewrite HT; exact T).
        assert (P : forall ind', List.length ind' = List.length ind -> forall s, ok (when_print s (fun t => wrapped_print w t ind' width)) <-> (nonempty s -> Z.of_nat (List.length ind) < width)).
        { intros ind' L. rewrite <- L. apply (when_printed (fun t => t) _ ind'). reflexivity. }
        set (ind2 := match opt_true n with Some _ => blanks ind | None => ind end). assert (L2 : List.length ind2 = List.length ind) by (unfold ind2; destruct (opt_true n); [apply blanks_length|reflexivity]). clearbody ind2.
        assert (L3 : forall l : list child, List.length (match l with [] => ind2 | _ => blanks ind2 end) = List.length ind) by (intros [|? ?]; [exact L2|now rewrite blanks_length]).
        rewrite ok_bind. split.
        -- intros (a & Ea & E). destruct cs as [l|]; [|destruct E; discriminate]. apply ok_bind in E as (b & Eb & E). apply ok_bind in E as (c & Ec & _).
           pose proof (proj1 (P ind eq_refl n) (ex_intro _ a Ea)) as Pa. pose proof (proj1 (P _ (L3 l) w') (ex_intro _ c Ec)) as Pc.
           pose proof (proj1 (seq_ok l (H l eq_refl) _) (ex_intro _ b Eb)) as R. rewrite L2 in R. split; [split; [discriminate|]|].
           ++ intros [X|[X|X]]; [now destruct (NT X)|auto|auto].
           ++ intros _ cs [= <-]. exact R.
        -- intros [[C N] R]. destruct cs as [l|]; [|destruct (C NT eq_refl)]. specialize (R NT l eq_refl).
           destruct (proj2 (P ind eq_refl n)) as [a Ea]; [auto|]. destruct (proj2 (P _ (L3 l) w')) as [c Ec]; [auto|]. destruct (proj2 (seq_ok l (H l eq_refl) ind2)) as [b Eb]; [rewrite L2; exact R|].
           exists a. split; [exact Ea|]. apply ok_bind. exists b. split; [exact Eb|]. apply ok_bind. exists c. split; [exact Ec|]. eexists; reflexivity.
  - intros s H. exact H.
  - intros a H. exact H.
  - intros ls indent. cbn [txt_child]. rewrite quoted_ok. rewrite fits_leaf; [reflexivity|]. intros n d P. inversion P; auto.
  - intros e indent. cbn [txt_child]. rewrite struct_ok. rewrite fits_leaf; [reflexivity|]. intros n d P. inversion P; auto.
  - intros i t ps H indent. cbn [txt_child]. rewrite txt_article_eq, fits_article. cbn zeta. set (ind := indent ++ pad 10 (i ++ u8 ". §")).
    assert (LI : List.length ind = (List.length indent + article_width (mk_article i t ps))%nat) by (unfold ind, article_width; rewrite app_length, pad_length, app_length; reflexivity).
    unfold fits. rewrite <- LI. cbn [a_title a_paragraphs]. clearbody ind. rewrite ok_both. rewrite paragraphs_ok by exact H.
    rewrite (when_printed (fun t => spaces 5 ++ u8 "[" ++ t ++ u8 "]") _ ind) by reflexivity.
    replace (List.length (match opt_true t with Some _ => blanks ind | None => ind end)) with (List.length ind) by (destruct (opt_true t); [now rewrite blanks_length|reflexivity]).
    reflexivity.
Qed.

Theorem act_shown a : ok (txt_act w width [] a) <-> act_fits width a.
Proof.
  unfold txt_act. rewrite ok_bind. 
  set (go := fix go (indent : pystr) (cs : list act_child) : res output :=
             match cs with
             | [] => Ok []
             | c :: t =>
                 x <- match c with AStruct e => txt_struct w width indent e | AArticle x => txt_article w width indent x end ;;
                 y <- go (blanks indent) t ;;
                 Ok (x ++ to_file [] ++ y)
             end).
  assert (G : forall l indent, List.length indent = 0%nat -> ok (go indent l) <-> forall c n d, In c l -> prints (act_child_child c) n d -> fits width n d).
  { induction l as [|c l IH]; intros indent L.
    - split; [intros _ c n d []|]. intros _. eexists; reflexivity.
    - change (go indent (c :: l)) with (x <- match c with AStruct e => txt_struct w width indent e | AArticle x => txt_article w width indent x end ;; y <- go (blanks indent) l ;; Ok (x ++ to_file [] ++ y)).
      rewrite ok_both, (IH (blanks indent)) by (now rewrite blanks_length).
      assert (C : ok (match c with AStruct e => txt_struct w width indent e | AArticle x => txt_article w width indent x end) <-> forall n d, prints (act_child_child c) n d -> fits width n d).
      { destruct c as [e|x].
        - pose proof (proj1 (proj2 tree_shown) (ChStruct e) indent) as T. cbn [txt_child] in T. rewrite L in T. exact T.
        - pose proof (proj2 (proj2 tree_shown) x indent) as T. cbn [txt_child] in T. rewrite L in T. exact T. }
      rewrite C. split.
      + intros [H1 H2] e n d [<-|I]; [apply H1|now apply H2].
      + intros H. split; [intros n d; apply H; now left|]. intros e n d I. apply H. now right. }
  split.
  - intros (p & _ & E). apply ok_bind in E as (r & Er & _). exact (proj1 (G _ [] eq_refl) (ex_intro _ r Er)).
  - intros H. destruct (proj2 (print_ok (act_preamble a) [])) as [p Ep]; [cbn; lia|]. exists p. split; [exact Ep|]. apply ok_bind. destruct (proj2 (G _ [] eq_refl) H) as [r Er]. exists r. split; [exact Er|]. eexists; reflexivity.
Qed.
End Shown.
