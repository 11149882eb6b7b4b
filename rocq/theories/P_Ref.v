(* Properties C18-C24: references. *)
From Coq Require Import ZifyBool ZifyNat ZifyN.
From Verif Require Import PyBase PyBaseFacts NumModel NumSpec IdModel IdSpec IdProofs RefModel RefSpec RefProofs RefProofs2 RefProofs3.
Local Open Scope Z_scope.

Definition ref (act article paragraph point subpoint : rpart) : reference :=
  mk_ref (match act with RId s => Some s | _ => None end) article paragraph point subpoint.

(** C18 *)
Theorem C18_assoc : forall a b c,
  relative_to (relative_to a b) c = relative_to a (relative_to b c).
Proof. exact relative_to_assoc. Qed.
Print Assumptions C18_assoc.
Theorem C18_empty : forall a, relative_to EMPTY_REF a = a /\ relative_to a EMPTY_REF = a.
Proof. intros a. split; [apply relative_to_empty_l|apply relative_to_empty_r]. Qed.
Print Assumptions C18_empty.
Theorem C18_twice : forall a b, relative_to (relative_to a b) b = relative_to a b.
Proof. exact relative_to_twice. Qed.
Print Assumptions C18_twice.
Theorem C18_components : forall a b i, first_level a i -> forall j,
  nth_part (relative_to a b) j = if (j <? i)%nat then nth_part b j else nth_part a j.
Proof. exact relative_to_levels. Qed.
Print Assumptions C18_components.
Theorem C18_every_case : forall a, a = EMPTY_REF \/ exists i, first_level a i.
Proof. exact first_level_exists. Qed.
Print Assumptions C18_every_case.
Example C18_ex :
  first_level (ref RNone RNone (RRange (u8 "2") (u8 "4")) RNone RNone) 2 /\
  relative_to (ref RNone RNone (RRange (u8 "2") (u8 "4")) RNone RNone)
              (ref (RId (u8 "2013. évi V. törvény")) (RId (u8 "6:8")) (RId (u8 "1")) (RId (u8 "a")) RNone)
  = ref (RId (u8 "2013. évi V. törvény")) (RId (u8 "6:8")) (RRange (u8 "2") (u8 "4")) RNone RNone.
Proof.
  split; [|reflexivity]. split; [lia|]. split; [discriminate|]. intros [|[|j]] Hj; [reflexivity|reflexivity|lia].
Qed.

(** C19 *)
Theorem C19_lt : forall a b, no_ranges a -> no_ranges b -> readable a -> readable b ->
  exists r, ref_lt a b = Ok r /\ (r = true <-> ref_before a b).
Proof. exact ref_lt_spec. Qed.
Print Assumptions C19_lt.
Theorem C19_others : forall a b, no_ranges a -> no_ranges b -> readable a -> readable b ->
  (exists r, ref_gt a b = Ok r /\ (r = true <-> ref_before b a)) /\
  (exists r, ref_le a b = Ok r /\ (r = true <-> a = b \/ ref_before a b)) /\
  (exists r, ref_ge a b = Ok r /\ (r = true <-> b = a \/ ref_before b a)).
Proof.
  intros a b H1 H2 H3 H4. split; [|split].
  - rewrite ref_gt_spec by assumption. now apply ref_lt_spec.
  - now apply ref_le_spec.
  - rewrite ref_ge_spec by assumption. now apply ref_le_spec.
Qed.
Print Assumptions C19_others.
Theorem C19_strict_order : 
  (forall a, readable a -> ~ ref_before a a) /\
  (forall a b c, readable a -> readable b -> readable c -> ref_before a b -> ref_before b c -> ref_before a c).
Proof.
  split.
  - intros a H. rewrite ref_before_lex. now apply lex_irrefl.
  - intros a b c Ha Hb Hc. rewrite !ref_before_lex. apply lex_trans; auto.
Qed.
Print Assumptions C19_strict_order.
(* with canonical identifiers two different references are always ordered *)
Theorem C19_total : forall a b, no_ranges a -> no_ranges b -> canonical a -> canonical b ->
  ref_before a b \/ a = b \/ ref_before b a.
Proof. exact ref_total. Qed.
Print Assumptions C19_total.
(* the identifiers of articles, numbered and lettered elements are canonical *)
Theorem C19_canonical_ids :
  (forall s n l, plain_letter l -> canonical_id (numeric_id s n l)) /\
  (forall b n l, article_letter l -> canonical_id (article_id b n l)) /\
  (forall t, no_digits t -> canonical_id t).
Proof. split; [exact numeric_canonical|]. split; [exact article_canonical|exact text_canonical]. Qed.
Print Assumptions C19_canonical_ids.
(* without that, "1" and "01" make incomparability intransitive *)
Theorem C19_weak_order_refuted : exists a b c, no_ranges a /\ no_ranges b /\ no_ranges c /\
  ref_lt a b = Ok false /\ ref_lt b a = Ok false /\ ref_lt b c = Ok false /\ ref_lt c b = Ok false /\
  ref_lt a c = Ok true.
Proof.
  exists (ref RNone (RId (u8 "1")) (RId (u8 "1")) RNone RNone), (ref RNone (RId (u8 "01")) RNone RNone RNone),
         (ref RNone (RId (u8 "1")) (RId (u8 "2")) RNone RNone).
  repeat split; try (repeat constructor); vm_compute; reflexivity.
Qed.
Print Assumptions C19_weak_order_refuted.
Theorem C19_ancestors_first : forall a b, gap_free a -> no_ranges b -> ancestor a b -> ref_before a b.
Proof. exact ancestor_before. Qed.
Print Assumptions C19_ancestors_first.
Theorem C19_ranges_raise : forall a b i,
  (exists x y, nth_part a i = RRange x y \/ nth_part b i = RRange x y) ->
  (forall j, (j < i)%nat -> nth_part a j = nth_part b j) ->
  ref_lt a b = Err ValueError /\ ref_gt a b = Err ValueError.
Proof.
  intros a b i (x & y & H) Hj. unfold ref_lt, ref_gt, ref_lt_gt.
  split; apply (lt_gt_range _ _ _ i); auto; unfold nth_part in H; destruct H as [->| ->]; cbn; auto using orb_true_r.
Qed.
Print Assumptions C19_ranges_raise.
Example C19_ex :
  let a := ref (RId (u8 "2012. évi C. törvény")) (RId (u8 "9")) RNone RNone RNone in
  let b := ref (RId (u8 "2012. évi C. törvény")) (RId (u8 "9")) (RId (u8 "2a")) RNone RNone in
  let c := ref (RId (u8 "2012. évi C. törvény")) (RId (u8 "10/A")) RNone RNone RNone in
  no_ranges b /\ canonical b /\ ref_lt a b = Ok true /\ ref_lt b c = Ok true /\ ref_le c a = Ok false.
Proof.
  cbn zeta. split; [repeat constructor|]. split.
  - apply canonicalb_ok. vm_compute. reflexivity.
  - vm_compute. auto.
Qed.
Example C19_ranges_raise_ex : ref_lt (ref RNone (RId (u8 "1")) (RId (u8 "2")) RNone RNone)
    (ref RNone (RId (u8 "1")) (RRange (u8 "1") (u8 "3")) RNone RNone) = Err ValueError.
Proof. reflexivity. Qed.

(** C20 *)
Theorem C20_contains : forall a b,
  simple_reference a -> simple_reference b -> (r_act a = None <-> r_act b = None) ->
  exists r, contains a b = Ok r /\
    (r = true <-> forall p, canonical_path p -> covers b p -> covers a p).
Proof. exact contains_covers. Qed.
Print Assumptions C20_contains.
Theorem C20_reflexive : forall a, simple_reference a -> contains a a = Ok true.
Proof. exact contains_refl. Qed.
Print Assumptions C20_reflexive.
Theorem C20_transitive : forall a b c,
  simple_reference a -> simple_reference b -> simple_reference c ->
  (r_act a = None <-> r_act b = None) -> (r_act b = None <-> r_act c = None) ->
  contains a b = Ok true -> contains b c = Ok true -> contains a c = Ok true.
Proof. exact contains_trans. Qed.
Print Assumptions C20_transitive.
Definition ex_range := ref (RId (u8 "2012. évi C. törvény")) (RId (u8 "9")) (RRange (u8 "2") (u8 "4")) RNone RNone.
Definition ex_point := ref (RId (u8 "2012. évi C. törvény")) (RId (u8 "9")) (RId (u8 "3a")) (RId (u8 "b")) RNone.
Example C20_ex : simple_reference ex_range /\ simple_reference ex_point /\
  contains ex_range ex_point = Ok true /\ contains ex_point ex_range = Ok false.
Proof.
  split; [|split; [|vm_compute; auto]].
  - split; [apply canonicalb_ok; vm_compute; reflexivity|].
    exists [u8 "2012. évi C. törvény"; u8 "9"], (u8 "2"), (u8 "4"). split.
    + apply (di_range [u8 "2012. évi C. törvény"; u8 "9"] (u8 "2") (u8 "4") [RNone; RNone]). repeat constructor.
    + apply not_after_iff; [apply canonical_idb_ok; reflexivity|apply canonical_idb_ok; reflexivity|reflexivity].
  - split; [apply canonicalb_ok; vm_compute; reflexivity|].
    exists [u8 "2012. évi C. törvény"; u8 "9"; u8 "3a"], (u8 "b"), (u8 "b"). split.
    + apply (di_single [u8 "2012. évi C. törvény"; u8 "9"; u8 "3a"] (u8 "b") [RNone]). repeat constructor.
    + apply not_after_iff; [apply canonical_idb_ok; reflexivity|apply canonical_idb_ok; reflexivity|reflexivity].
Qed.
(* a point of an article without numbered paragraphs "contains" every paragraph of the article,
   and a reference without an act every place of every act *)
Theorem C20_gap_refuted :
  (exists a b, canonical a /\ simple_reference b /\ contains a b = Ok true /\
     r_act a = r_act b /\ r_article a = r_article b /\
     r_point a = RId (u8 "a") /\ r_paragraph b = RId (u8 "5") /\ r_point b = RId (u8 "c")) /\
  (exists a b, simple_reference a /\ simple_reference b /\ contains a b = Ok true /\
     r_article a = RId (u8 "2") /\ r_article b = RId (u8 "9")).
Proof.
  split.
  - exists (ref (RId (u8 "A")) (RId (u8 "3")) RNone (RId (u8 "a")) RNone),
           (ref (RId (u8 "A")) (RId (u8 "3")) (RId (u8 "5")) (RId (u8 "c")) RNone).
    split; [apply canonicalb_ok; vm_compute; reflexivity|]. split; [|vm_compute; auto 10].
    split; [apply canonicalb_ok; vm_compute; reflexivity|].
    exists [u8 "A"; u8 "3"; u8 "5"], (u8 "c"), (u8 "c"). split.
    + apply (di_single [u8 "A"; u8 "3"; u8 "5"] (u8 "c") [RNone]). repeat constructor.
    + apply not_after_iff; [apply canonical_idb_ok; reflexivity|apply canonical_idb_ok; reflexivity|reflexivity].
  - exists (ref RNone (RId (u8 "2")) RNone RNone RNone), (ref (RId (u8 "A")) (RId (u8 "9")) RNone RNone RNone).
    split; [|split; [|vm_compute; auto]].
    + split; [apply canonicalb_ok; vm_compute; reflexivity|]. exists [], (u8 "2"), (u8 "2"). split.
      * apply (di_single [] (u8 "2") [RNone; RNone; RNone]). repeat constructor.
      * apply not_after_iff; [apply canonical_idb_ok; reflexivity|apply canonical_idb_ok; reflexivity|reflexivity].
    + split; [apply canonicalb_ok; vm_compute; reflexivity|]. exists [u8 "A"], (u8 "9"), (u8 "9"). split.
      * apply (di_single [u8 "A"] (u8 "9") [RNone; RNone; RNone]). repeat constructor.
      * apply not_after_iff; [apply canonical_idb_ok; reflexivity|apply canonical_idb_ok; reflexivity|reflexivity].
Qed.
Print Assumptions C20_gap_refuted.

(** C21 *)
Theorem C21_ends_are_single : forall r,
  no_ranges (first_in_range r) /\ no_ranges (last_in_range r) /\
  is_range (first_in_range r) = false /\ is_range (last_in_range r) = false.
Proof.
  intros r. rewrite !is_range_no_ranges. split; [apply first_no_ranges|]. split; [apply last_no_ranges|].
  split; [apply first_no_ranges|apply last_no_ranges].
Qed.
Print Assumptions C21_ends_are_single.
Theorem C21_is_range : forall r, is_range r = false <-> no_ranges r.
Proof. exact is_range_no_ranges. Qed.
Print Assumptions C21_is_range.
(* every component of the ends: a range gives its ends, anything else stays *)
Theorem C21_ends : forall r i,
  (forall x y, nth_part r i = RRange x y ->
     nth_part (first_in_range r) i = RId x /\ nth_part (last_in_range r) i = RId y) /\
  ((forall x y, nth_part r i <> RRange x y) ->
     nth_part (first_in_range r) i = nth_part r i /\ nth_part (last_in_range r) i = nth_part r i).
Proof.
  intros r i.
  assert (E1 : nth_part (first_in_range r) i = part_first (nth_part r i))
    by (unfold nth_part; rewrite first_components; exact (map_nth part_first (components r) RNone i)).
  assert (E2 : nth_part (last_in_range r) i = part_last (nth_part r i))
    by (unfold nth_part; rewrite last_components; exact (map_nth part_last (components r) RNone i)).
  rewrite E1, E2. split.
  - intros x y ->. auto.
  - intros H. destruct (nth_part r i) as [|s|x y]; [auto|auto|]. exfalso. now apply (H x y).
Qed.
Print Assumptions C21_ends.
Theorem C21_single : forall r, no_ranges r -> first_in_range r = r /\ last_in_range r = r.
Proof. intros r H. apply first_of_single. now apply is_range_no_ranges. Qed.
Print Assumptions C21_single.
(* make_range succeeds exactly when every level agrees or runs forward; its ends are then the
   given references (with one act), otherwise it is an AssertionError *)
Theorem C21_make_range : forall f l, no_ranges f -> no_ranges l -> readable f -> readable l ->
  let fits := forall i, (1 <= i < 5)%nat -> rangeable (nth_part f i) (nth_part l i) in
  (fits -> exists r, make_range f l = Ok r) /\ (~ fits -> make_range f l = Err AssertionError).
Proof.
  intros f l H1 H2 H3 H4 fits. destruct (make_range_spec f l H1 H2 H3 H4) as [[F [r E]]|[N E]].
  - split; [now exists r|]. intros N. contradiction.
  - split; [contradiction|auto].
Qed.
Print Assumptions C21_make_range.
Theorem C21_make_range_ends : forall f l r, no_ranges f -> no_ranges l -> make_range f l = Ok r ->
  first_in_range r = with_act (r_act r) f /\ last_in_range r = with_act (r_act r) l /\
  (r_act f = r_act l -> first_in_range r = f /\ last_in_range r = l) /\
  (forall c s, r_act f = Some (c :: s) -> r_act r = r_act f) /\
  (r_act f = None -> r_act r = r_act l).
Proof.
  intros f l r H1 H2 H. destruct (make_range_ends f l r H1 H2 H) as (E1 & E2 & E3).
  split; [exact E1|]. split; [exact E2|]. split.
  - intros E. rewrite E1, E2, (E3 E). destruct f, l. cbn in *. subst. auto.
  - unfold make_range in H.
    apply bind_ok in H as (t1 & _ & H). apply bind_ok in H as (t2 & _ & H).
    apply bind_ok in H as (t3 & _ & H). apply bind_ok in H as (t4 & _ & H). injection H as <-.
    cbn. unfold opt_str_or. split; [intros c s ->|intros ->]; reflexivity.
Qed.
Print Assumptions C21_make_range_ends.
Example C21_ex :
  make_range (ref (RId (u8 "A")) (RId (u8 "3")) (RId (u8 "2")) RNone RNone)
             (ref RNone (RId (u8 "3")) (RId (u8 "10")) RNone RNone)
  = Ok (ref (RId (u8 "A")) (RId (u8 "3")) (RRange (u8 "2") (u8 "10")) RNone RNone) /\
  make_range (ref RNone (RId (u8 "3")) (RId (u8 "2")) RNone RNone)
             (ref RNone (RId (u8 "3")) (RId (u8 "2")) (RId (u8 "a")) RNone) = Err AssertionError /\
  make_range (ref RNone (RId (u8 "4")) RNone RNone RNone) (ref RNone (RId (u8 "3")) RNone RNone RNone)
  = Err AssertionError.
Proof. vm_compute. auto. Qed.

(** C22 *)
Theorem C22_inverse : forall r, Forall part_safe (tl (components r)) -> r_act r = None ->
  from_relative_id_string (relative_id_string r) = Ok r.
Proof.
  intros r H E. rewrite id_string_inverse by exact H. f_equal. destruct r. cbn in *. now subst.
Qed.
Print Assumptions C22_inverse.
Theorem C22_injective : forall r s,
  Forall part_safe (tl (components r)) -> Forall part_safe (tl (components s)) ->
  r_act r = None -> r_act s = None -> relative_id_string r = relative_id_string s -> r = s.
Proof.
  intros r s Hr Hs Er Es H. apply (f_equal from_relative_id_string) in H.
  rewrite !C22_inverse in H by assumption. congruence.
Qed.
Print Assumptions C22_injective.
Example C22_ex :
  let r := ref RNone (RId (u8 "3:12/A")) (RRange (u8 "1") (u8 "2a")) (RId (u8 "gy")) RNone in
  Forall part_safe (tl (components r)) /\ relative_id_string r = u8 "3colon12slashA_1-2a_gy_".
Proof.
  split; [|reflexivity]. cbn.
  assert (D : forall s, negb (str_eqb s []) && negb (mem_chr 95 s) && negb (mem_chr 45 s) &&
    negb (contains_sub (u8 "slash") s) && negb (contains_sub (u8 "colon") s) = true -> string_safe s).
  { intros s H. repeat (apply andb_prop in H as [H ?H]). apply negb_true_iff in H, H0, H1, H2, H3.
    unfold string_safe. rewrite <- !mem_chr_false. apply str_eqb_neq in H. auto. }
  repeat constructor; apply D; reflexivity.
Qed.
(* the conditions matter: an identifier with a hyphen is taken for a range *)
Theorem C22_hyphen_refuted : exists r s, r <> s /\ r_act r = None /\ r_act s = None /\
  relative_id_string r = relative_id_string s.
Proof.
  exists (ref RNone (RId (u8 "1-2")) RNone RNone RNone), (ref RNone (RRange (u8 "1") (u8 "2")) RNone RNone RNone).
  split; [discriminate|]. auto.
Qed.
Print Assumptions C22_hyphen_refuted.

(** C23 *)
Theorem C23_is_parent_of : forall a b, gap_free a -> (is_parent_of a b = true <-> ancestor a b).
Proof. exact is_parent_spec. Qed.
Print Assumptions C23_is_parent_of.
(* an ancestor is what repeated parent() gives *)
Theorem C23_parent_chain : forall a b, ancestor a b <-> a <> b /\ exists k, a = Nat.iter k parent b.
Proof.
  intros a b. unfold ancestor. split; intros [N [n H]]; (split; [exact N|]).
  - exact (truncated_iter n b a H).
  - subst a. apply iter_truncated.
Qed.
Print Assumptions C23_parent_chain.
Theorem C23_parent_removes_deepest : forall r i, deepest r i -> truncated i r (parent r).
Proof. exact parent_spec. Qed.
Print Assumptions C23_parent_removes_deepest.
Theorem C23_reaches_empty : forall r, Nat.iter 5 parent r = EMPTY_REF.
Proof. exact parent_reaches_empty. Qed.
Print Assumptions C23_reaches_empty.
Theorem C23_strict_order : (forall a, ~ ancestor a a) /\
  (forall a b c, ancestor a b -> ancestor b c -> ancestor a c) /\
  (forall a, is_parent_of a a = false) /\
  (forall a b c, gap_free a -> gap_free b -> is_parent_of a b = true -> is_parent_of b c = true -> is_parent_of a c = true).
Proof.
  split; [exact ancestor_irrefl|]. split; [exact ancestor_trans|]. split; [intros a; apply is_parent_refl|].
  intros a b c Ga Gb H1 H2. apply is_parent_spec; [exact Ga|].
  apply (ancestor_trans a b c); now apply is_parent_spec.
Qed.
Print Assumptions C23_strict_order.
Example C23_ex : gap_free (ref (RId (u8 "A")) (RId (u8 "3")) RNone RNone RNone) /\
  is_parent_of (ref (RId (u8 "A")) (RId (u8 "3")) RNone RNone RNone)
               (ref (RId (u8 "A")) (RId (u8 "3")) RNone (RId (u8 "b")) RNone) = true.
Proof.
  split; [|reflexivity]. intros i. do 6 (destruct i as [|i]; [cbn; solve [discriminate|reflexivity]|]).
  intros _. now apply nth_part_out; lia.
Qed.
(* with a gap in a it is wrong: the code looks at the first difference only *)
Theorem C23_gap_refuted : exists a b, is_parent_of a b = true /\ ~ ancestor a b.
Proof.
  exists (ref RNone (RId (u8 "2")) RNone RNone RNone), (ref (RId (u8 "A")) (RId (u8 "9")) RNone RNone RNone).
  split; [reflexivity|]. intros [_ [n H]]. specialize (H 1%nat). unfold nth_part in H. cbn in H.
  destruct (1 <? n)%nat; discriminate.
Qed.
Print Assumptions C23_gap_refuted.

(** C24 *)
Theorem C24_only_act : forall r m, let r' := resolve_abbreviations r m in
  r_article r' = r_article r /\ r_paragraph r' = r_paragraph r /\ r_point r' = r_point r /\
  r_subpoint r' = r_subpoint r /\
  (forall x y, r_act r = Some x -> m x = Some y -> r_act r' = Some y) /\
  ((r_act r = None \/ exists x, r_act r = Some x /\ m x = None) -> r' = r).
Proof.
  intros r m. cbn zeta. repeat (split; [reflexivity|]). destruct r as [[a|] p1 p2 p3 p4]; cbn; split.
  - intros x y E Hm. injection E as ->. now rewrite Hm.
  - intros [H|(x & E & Hm)]; [discriminate|]. injection E as ->. unfold resolve_abbreviations. cbn. now rewrite Hm.
  - discriminate.
  - reflexivity.
Qed.
Print Assumptions C24_only_act.
Theorem C24_only_act_structural : forall r m, let r' := sref_resolve r m in
  sr_book r' = sr_book r /\ sr_part r' = sr_part r /\ sr_title r' = sr_title r /\
  sr_chapter r' = sr_chapter r /\ sr_subtitle r' = sr_subtitle r /\ sr_special r' = sr_special r /\
  (forall x y, sr_act r = Some x -> m x = Some y -> sr_act r' = Some y) /\
  ((sr_act r = None \/ exists x, sr_act r = Some x /\ m x = None) -> r' = r).
Proof.
  intros r m. cbn zeta. repeat (split; [reflexivity|]). destruct r as [[a|] p1 p2 p3 p4 p5 p6]; cbn; split.
  - intros x y E Hm. injection E as ->. now rewrite Hm.
  - intros [H|(x & E & Hm)]; [discriminate|]. injection E as ->. unfold sref_resolve. cbn. now rewrite Hm.
  - discriminate.
  - reflexivity.
Qed.
Print Assumptions C24_only_act_structural.
Theorem C24_idempotent : forall m, (forall x y, m x = Some y -> m y = None \/ m y = Some y) ->
  (forall r, resolve_abbreviations (resolve_abbreviations r m) m = resolve_abbreviations r m) /\
  (forall r, sref_resolve (sref_resolve r m) m = sref_resolve r m).
Proof. intros m H. split; intros r; [now apply resolve_idempotent|now apply sref_resolve_idempotent]. Qed.
Print Assumptions C24_idempotent.
Definition ex_abbrevs : abbrev_map := fun x => if str_eqb x (u8 "Tv.") then Some (u8 "2012. évi C. törvény") else None.
Example C24_ex : (forall x y, ex_abbrevs x = Some y -> ex_abbrevs y = None \/ ex_abbrevs y = Some y) /\
  resolve_abbreviations (ref (RId (u8 "Tv.")) (RId (u8 "3")) RNone RNone RNone) ex_abbrevs
  = ref (RId (u8 "2012. évi C. törvény")) (RId (u8 "3")) RNone RNone RNone.
Proof.
  split; [|reflexivity]. intros x y. unfold ex_abbrevs. destruct (str_eqb x (u8 "Tv.")); [|discriminate].
  intros H. injection H as <-. left. reflexivity.
Qed.
