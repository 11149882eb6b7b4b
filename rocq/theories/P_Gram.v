(* Properties C40, C41, C56, C57: from parse trees to references and semantic data. *)
From Coq Require Import Lia.
From Coq Require Import ZifyBool ZifyNat ZifyN.
From Verif Require Import PyBase PyBaseFacts NumModel NumSpec IdModel IdSpec IdProofs LineSpec DateModel DateSpec DateProofs
  RefModel RefSpec RefProofs RefProofs2 RefProofs3 P_Ref TreeModel StructModel StructSpec SemModel SemSpec SemProofs6 GramModel GramSpec GramProofs GramProofs2 GramProofs3 GramProofs4.
Local Open Scope Z_scope.

(** C40 *)
Theorem C40_covered : forall act l c so eo, Forall real l -> add_all (new_collector act) l = Ok c -> forall x, In x l ->
  exists o, In o (collector_iter c so eo) /\ mentions (nth_part (or_reference o) (level_of (ad_type x))) (ad_data x).
Proof. exact collector_covers. Qed.
Print Assumptions C40_covered.
Theorem C40_sound : forall act l c so eo, Forall real l -> add_all (new_collector act) l = Ok c -> forall o, In o (collector_iter c so eo) ->
  r_act (or_reference o) = act /\ forall k, (1 <= k)%nat -> comes_from l k (nth_part (or_reference o) k).
Proof. exact collector_sound. Qed.
Print Assumptions C40_sound.
(* Lower levels belong to the last item of each level above. *)
Theorem C40_nesting : forall act l c so eo, Forall real l -> add_all (new_collector act) l = Ok c -> forall o, In o (collector_iter c so eo) ->
  exists k, (forall j, (j < k)%nat -> nth_part (or_reference o) j = nth_part (or_reference (last (collector_iter c so eo) o)) j) /\
            (forall j, (k < j)%nat -> nth_part (or_reference o) j = RNone).
Proof. exact collector_nesting. Qed.
Print Assumptions C40_nesting.
Theorem C40_count : forall act l c so eo, Forall real l -> add_all (new_collector act) l = Ok c ->
  exists out, grouped l out /\
    length (collector_iter c so eo) = (1 + list_sum (map (fun k => length (at_level k out) - 1) [1; 2; 3; 4]))%nat.
Proof. exact collector_count. Qed.
Print Assumptions C40_count.
Theorem C40_grouping : forall l a b, grouped l a -> grouped l b -> a = b.
Proof. intros l a b A B. exact (grouped_unique l a A b B). Qed.
Print Assumptions C40_grouping.
Theorem C40_spans : forall act l c s e, Forall real l -> add_all (new_collector act) l = Ok c -> s < e -> well_placed s e l ->
  in_order s e (collector_iter c (Some s) e) /\
  (forall d, or_start (hd d (collector_iter c (Some s) e)) = s) /\
  (forall d, or_end (last (collector_iter c (Some s) e) d) = e).
Proof. exact collector_spans. Qed.
Print Assumptions C40_spans.
(* The same for a reference of a parse tree *)
Theorem C40_parsed : forall act r l, convert_single_in_text_reference act r = Ok l -> reference_ok r ->
  in_order (fst (gr_span r)) (snd (gr_span r)) l /\
  (forall d, or_start (hd d l) = fst (gr_span r)) /\ (forall d, or_end (last l d) = snd (gr_span r)) /\
  (forall x, In x (additions_of r) -> exists o, In o l /\ mentions (nth_part (or_reference o) (level_of (ad_type x))) (ad_data x)) /\
  (forall o, In o l -> r_act (or_reference o) = act /\ forall k, (1 <= k)%nat -> comes_from (additions_of r) k (nth_part (or_reference o) k)).
Proof. exact converted_reference. Qed.
Print Assumptions C40_parsed.

(* "az 1. §, a 3. § és 4. § (2)-(5) bekezdése": three articles, the last two consecutive, and a range of paragraphs *)
Definition c40_reference := mk_greference
  [mk_gpart PArticle [mk_gsingle [u8 "1"; u8 "."] (3, 5); mk_gsingle [u8 "3"] (11, 13); mk_gsingle [u8 "4"] (19, 21)] [];
   mk_gpart PParagraph [] [mk_grange [u8 "2"] [u8 "5"] (24, 31)]] (3, 41).
Definition c40_additions := [mk_add PArticle (RId (u8 "1")) 3 5; mk_add PArticle (RId (u8 "3")) 11 13; mk_add PArticle (RId (u8 "4")) 19 21;
  mk_add PParagraph (RRange (u8 "2") (u8 "5")) 24 31].
Lemma c40_pairs : forall l1 x y l2, c40_additions = l1 ++ x :: y :: l2 -> follows x y ->
    ad_end x <= ad_start y /\ Forall (fun z => ~ (ad_end x <= ad_start z /\ ad_end z <= ad_start y)) (l1 ++ l2).
Proof.
  intros [|a [|b [|c l1]]] x y l2 E F; cbn [app] in E; unfold c40_additions in E.
  - injection E as <- <- <-. destruct F as (_ & n & a & b & N & A & B & F). cbn in N, A, B. injection N as <-. injection A as <-. injection B as <-. vm_compute in F. discriminate.
  - injection E as <- <- <- <-. cbn [ad_end ad_start app]. split; [lia|]. repeat constructor; cbn [ad_end ad_start]; lia.
  - injection E as <- <- <- <- <-. destruct F as (F & _). discriminate.
  - apply (f_equal (@length _)) in E. cbn [length] in E. rewrite app_length in E. cbn [length] in E. lia.
Qed.
Example C40_ex :
  exists c, Forall real c40_additions /\ add_all (new_collector (Some (u8 "Ptk."))) c40_additions = Ok c /\ 3 < 41 /\ well_placed 3 41 c40_additions /\
  collector_iter c (Some 3) 41 =
    [mk_outgoing 3 5 (ref (RId (u8 "Ptk.")) (RId (u8 "1")) RNone RNone RNone);
     mk_outgoing 11 41 (ref (RId (u8 "Ptk.")) (RRange (u8 "3") (u8 "4")) (RRange (u8 "2") (u8 "5")) RNone RNone)].
Proof.
  eexists. split; [repeat constructor; discriminate|]. split; [vm_compute; reflexivity|]. split; [lia|]. split; [|vm_compute; reflexivity].
  split; [repeat constructor; cbn; lia|]. split; [|exact c40_pairs].
  unfold c40_additions. repeat constructor; unfold apart; cbn [ad_start ad_end ad_type level_of]; lia.
Qed.
Example C40_parsed_ex : exists r l, convert_single_in_text_reference None r = Ok l /\ reference_ok r /\ length l = 2%nat /\ length (additions_of r) = 4%nat.
Proof.
  exists (mk_greference
  [mk_gpart PArticle [mk_gsingle [u8 "1"] (3, 5); mk_gsingle [u8 "3"] (11, 13); mk_gsingle [u8 "4"] (19, 21)] [];
   mk_gpart PParagraph [] [mk_grange [u8 "2"] [u8 "5"] (24, 31)]] (3, 41)).
  eexists. split; [vm_compute; reflexivity|]. split; [|split; reflexivity]. split; [unfold span_ok; cbn; lia|].
  change (well_placed 3 41 c40_additions). split; [repeat constructor; cbn; lia|]. split; [|exact c40_pairs].
  unfold c40_additions. repeat constructor; unfold apart; cbn [ad_start ad_end ad_type level_of]; lia.
Qed.

(* Without the condition on pairs: in "1., 3-5. és 2. §" the ranges are added after the single
   identifiers, 1 and 2 become a range, and its span overlaps that of the other. *)
Theorem C40_overlap_refuted : ~ forall l c s e, Forall real l -> add_all (new_collector None) l = Ok c -> s < e ->
  Forall (fun x => s <= ad_start x /\ ad_start x < ad_end x /\ ad_end x <= e) l -> ForallOrdPairs apart l ->
  in_order s e (collector_iter c (Some s) e).
Proof.
  intros H.
  set (l := [mk_add PArticle (RId (u8 "1")) 0 2; mk_add PArticle (RId (u8 "2")) 12 14; mk_add PArticle (RRange (u8 "3") (u8 "5")) 4 8]).
  assert (I := H l (match add_all (new_collector None) l with Ok c => c | Err _ => new_collector None end) 0 16).
  assert (J : in_order 0 16 [mk_outgoing 0 14 (ref RNone (RRange (u8 "1") (u8 "2")) RNone RNone RNone); mk_outgoing 4 16 (ref RNone (RRange (u8 "3") (u8 "5")) RNone RNone RNone)]).
  { apply I; [repeat constructor; discriminate|reflexivity|lia|repeat constructor; cbn; lia|].
    unfold l. repeat constructor; unfold apart; cbn [ad_start ad_end ad_type level_of]; lia. }
  inversion J as [|? ? ? ? _ _ J2]; subst. inversion J2 as [|? ? ? ? J3 _ _]; subst. cbn in J3. lia.
Qed.
Print Assumptions C40_overlap_refuted.
(* A range made of two identifiers contains what was inserted between them. *)
Theorem C40_exact_refuted : ~ forall l c o r, Forall real l -> (forall x, In x l -> exists i, ad_data x = RId i) ->
  add_all (new_collector None) l = Ok c -> In o (collector_iter c None 100) -> contains (or_reference o) (ref RNone r RNone RNone RNone) = Ok true ->
  exists x, In x l /\ ad_data x = r.
Proof.
  intros H.
  set (l := [mk_add PArticle (RId (u8 "1")) 0 2; mk_add PArticle (RId (u8 "2")) 12 14]).
  destruct (H l (match add_all (new_collector None) l with Ok c => c | Err _ => new_collector None end)
              (mk_outgoing 0 100 (ref RNone (RRange (u8 "1") (u8 "2")) RNone RNone RNone)) (RId (u8 "1/A"))) as (x & [<-|[<-|[]]] & X).
  - repeat constructor; discriminate.
  - intros x [<-|[<-|[]]]; eexists; reflexivity.
  - reflexivity.
  - left. vm_compute. reflexivity.
  - vm_compute. reflexivity.
  - discriminate.
  - discriminate.
Qed.
Print Assumptions C40_exact_refuted.

(** C41: what is inserted is read relative to what is amended. *)
Theorem C41_interval : forall amended inserted ids lo hi lo' hi',
  let ins := relative_to (without_act inserted) amended in
  canonical amended -> canonical ins ->
  denotes_interval (levels amended) ids lo hi -> not_after lo hi ->
  denotes_interval (levels ins) ids lo' hi' -> not_after lo' hi' ->
  part_before (RId hi) (RId lo') ->
  exists u, convert_amendment_and_insertion amended inserted = Ok (BlockAmendment (ARef u) false) /\
    r_act u = r_act amended /\ denotes_interval (levels u) ids lo hi'.
Proof. exact union_follows. Qed.
Print Assumptions C41_interval.
Theorem C41_covers : forall amended inserted ids lo hi lo' hi',
  let ins := relative_to (without_act inserted) amended in
  canonical amended -> canonical ins ->
  denotes_interval (levels amended) ids lo hi -> not_after lo hi ->
  denotes_interval (levels ins) ids lo' hi' -> not_after lo' hi' ->
  part_before (RId hi) (RId lo') ->
  exists u, convert_amendment_and_insertion amended inserted = Ok (BlockAmendment (ARef u) false) /\
    forall p, canonical_path p -> covers amended p \/ covers ins p -> covers u p.
Proof. exact union_covers. Qed.
Print Assumptions C41_covers.
Theorem C41_inside : forall amended inserted r, let ins := relative_to (without_act inserted) amended in
  contains amended (first_in_range ins) = Ok true ->
  convert_amendment_and_insertion amended inserted = Ok r -> r = BlockAmendment (ARef amended) false.
Proof. exact union_inside. Qed.
Print Assumptions C41_inside.
(* 6:8. § (2), with (3)-(4) and (4a) inserted *)
Definition c41_amended := ref (RId (u8 "2013. évi V. törvény")) (RId (u8 "6:8")) (RId (u8 "2")) RNone RNone.
Definition c41_inserted := ref (RId (u8 "2013. évi V. törvény")) RNone (RRange (u8 "3") (u8 "4a")) RNone RNone.
Example C41_ex : let ins := relative_to (without_act c41_inserted) c41_amended in
  canonical c41_amended /\ canonical ins /\
  denotes_interval (levels c41_amended) [u8 "2013. évi V. törvény"; u8 "6:8"] (u8 "2") (u8 "2") /\ not_after (u8 "2") (u8 "2") /\
  denotes_interval (levels ins) [u8 "2013. évi V. törvény"; u8 "6:8"] (u8 "3") (u8 "4a") /\ not_after (u8 "3") (u8 "4a") /\
  part_before (RId (u8 "2")) (RId (u8 "3")) /\
  convert_amendment_and_insertion c41_amended c41_inserted =
    Ok (BlockAmendment (ARef (ref (RId (u8 "2013. évi V. törvény")) (RId (u8 "6:8")) (RRange (u8 "2") (u8 "4a")) RNone RNone)) false).
Proof.
  cbv zeta. split; [apply canonicalb_ok; reflexivity|]. split; [apply canonicalb_ok; reflexivity|].
  split; [apply (di_single [_; _] _ [_; _]); repeat constructor|]. split; [apply not_after_iff; [apply canonical_idb_ok; reflexivity|apply canonical_idb_ok; reflexivity|reflexivity]|].
  split; [apply (di_range [_; _] _ _ [_; _]); repeat constructor|]. split; [apply not_after_iff; [apply canonical_idb_ok; reflexivity|apply canonical_idb_ok; reflexivity|reflexivity]|].
  split; [apply part_before_ids; [now apply (canonical_idb_ok (u8 "2"))|now apply (canonical_idb_ok (u8 "3"))|reflexivity]|].
  vm_compute. reflexivity.
Qed.
Example C41_inside_ex : let amended := ref (RId (u8 "Ptk.")) (RRange (u8 "3") (u8 "5")) RNone RNone RNone in
  contains amended (first_in_range (relative_to (without_act (ref (RId (u8 "Ptk.")) (RId (u8 "4/A")) RNone RNone RNone)) amended)) = Ok true.
Proof. vm_compute. reflexivity. Qed.
(* What is inserted from inside to beyond the end is not covered. *)
Theorem C41_overlap_refuted : ~ forall amended inserted u x, no_ranges x -> canonical x ->
  convert_amendment_and_insertion amended inserted = Ok (BlockAmendment (ARef u) false) ->
  contains (relative_to (without_act inserted) amended) x = Ok true -> contains u x = Ok true.
Proof.
  intros H. specialize (H (ref (RId (u8 "Ptk.")) (RRange (u8 "3") (u8 "5")) RNone RNone RNone) (ref (RId (u8 "Ptk.")) (RRange (u8 "4/A") (u8 "6")) RNone RNone RNone)
    (ref (RId (u8 "Ptk.")) (RRange (u8 "3") (u8 "5")) RNone RNone RNone) (ref (RId (u8 "Ptk.")) (RId (u8 "6")) RNone RNone RNone)).
  assert (E : Ok false = Ok true); [|discriminate]. apply H.
  - repeat constructor.
  - apply canonicalb_ok. reflexivity.
  - vm_compute. reflexivity.
  - vm_compute. reflexivity.
Qed.
Print Assumptions C41_overlap_refuted.
(* A paragraph amended and the next article inserted: the conversion fails. *)
Theorem C41_depth_refuted : ~ forall amended inserted, canonical amended -> canonical (relative_to (without_act inserted) amended) ->
  no_ranges amended -> no_ranges inserted -> ref_before amended (relative_to (without_act inserted) amended) ->
  exists s, convert_amendment_and_insertion amended inserted = Ok s.
Proof.
  intros H. destruct (H (ref (RId (u8 "Ptk.")) (RId (u8 "5")) (RId (u8 "2")) RNone RNone) (ref (RId (u8 "Ptk.")) (RId (u8 "6")) RNone RNone RNone)) as (s & X).
  - apply canonicalb_ok. reflexivity.
  - apply canonicalb_ok. reflexivity.
  - repeat constructor.
  - repeat constructor.
  - destruct (ref_lt_spec (ref (RId (u8 "Ptk.")) (RId (u8 "5")) (RId (u8 "2")) RNone RNone)
      (relative_to (without_act (ref (RId (u8 "Ptk.")) (RId (u8 "6")) RNone RNone RNone)) (ref (RId (u8 "Ptk.")) (RId (u8 "5")) (RId (u8 "2")) RNone RNone)))
      as (r & R1 & R2); [repeat constructor|repeat constructor|apply canonical_readable; apply canonicalb_ok; reflexivity|apply canonical_readable; apply canonicalb_ok; reflexivity|].
    apply R2. vm_compute in R1. congruence.
  - vm_compute in X. discriminate.
Qed.
Print Assumptions C41_depth_refuted.

(** C56 *)
Theorem C56_chained : forall act refs l, convert_multiple_in_text_references act refs = Ok l ->
  exists own, flat_mapM (convert_single_in_text_reference None) refs = Ok own /\ chained (no_parts act) own l.
Proof. exact multiple_chained. Qed.
Print Assumptions C56_chained.
Theorem C56_act : forall act refs l, convert_multiple_in_text_references act refs = Ok l -> Forall (fun o => r_act (or_reference o) = act) l.
Proof. exact multiple_act. Qed.
Print Assumptions C56_act.
Theorem C56_text_amendments : forall a refs parts l, text_to_text a refs parts = Ok l -> refs <> [] ->
  exists act targets texts, get_act_id a = Ok act /\ convert_multiple_in_text_references (Some act) refs = Ok targets /\
    Forall2 (fun p t => quote_says (fst p) (fst t) /\ quote_says (snd p) (snd t)) parts texts /\
    l = flat_map (fun o => map (fun t => TextAmendment (or_reference o) (fst t) (snd t)) texts) targets.
Proof. exact text_amendments. Qed.
Print Assumptions C56_text_amendments.
Theorem C56_repeals : forall a refs texts l, repeal_to_repeal a refs texts = Ok l -> refs <> [] ->
  exists act targets said, get_act_id a = Ok act /\ convert_multiple_in_text_references (Some act) refs = Ok targets /\
    Forall2 quote_says texts said /\
    l = flat_map (fun o => match texts with
                           | [] => [Repeal (ARef (or_reference o)) None]
                           | _ => map (fun t => Repeal (ARef (or_reference o)) (Some t)) said
                           end) targets.
Proof. exact repeals. Qed.
Print Assumptions C56_repeals.
Theorem C56_order : forall t, convert_depth_first t = flat_mapM convert_single_node (post_order t).
Proof. exact depth_first. Qed.
Print Assumptions C56_order.
Theorem C56_parted : forall l acts others, act_references l = Ok acts -> element_references l = Ok others ->
  picks names_act_only (all_references l) acts others.
Proof. exact references_parted. Qed.
Print Assumptions C56_parted.
(* What C37 asks of the analyser, from what the spans of parse trees are like *)
Theorem C56_spans : forall parse, (forall s t, parse s = Some t -> Forall node_ok (post_order t)) -> sane_spans (analyzer_of parse).
Proof. exact analyzer_sane. Qed.
Print Assumptions C56_spans.

(* "Az 1990. évi C. törvény 1. § (2) bekezdésében, (3) bekezdésében és 6. §-ában az „ x y ” szövegrész helyébe a „z” szöveg lép." *)
Definition c56_act := mk_gactref (Some (u8 "1990", u8 "C", (3, 24))) None None.
Definition c56_refs := [
  mk_greference [mk_gpart PArticle [mk_gsingle [u8 "1"] (25, 29)] []; mk_gpart PParagraph [mk_gsingle [u8 "2"] (30, 33)] []] (25, 46);
  mk_greference [mk_gpart PParagraph [mk_gsingle [u8 "3"] (48, 51)] []] (48, 64);
  mk_greference [mk_gpart PArticle [mk_gsingle [u8 "6"] (68, 72)] []] (68, 76)].
Definition c56_parts := [([Leaf (u8 "„"); Leaf (u8 " x"); Node [Leaf (u8 " "); Leaf (u8 "y")]; Leaf (u8 "”")], [Leaf (u8 "„"); Leaf (u8 "z"); Leaf (u8 "”")])].
Definition c56_ref article paragraph := ref (RId (u8 "1990. évi C. törvény")) article paragraph RNone RNone.
Example C56_ex : text_to_text c56_act c56_refs c56_parts = Ok
  [TextAmendment (c56_ref (RId (u8 "1")) (RId (u8 "2"))) (u8 "x y") (u8 "z");
   TextAmendment (c56_ref (RId (u8 "1")) (RId (u8 "3"))) (u8 "x y") (u8 "z");
   TextAmendment (c56_ref (RId (u8 "6")) RNone) (u8 "x y") (u8 "z")] /\
  repeal_to_repeal c56_act c56_refs [fst (hd ([], []) c56_parts); snd (hd ([], []) c56_parts)] = Ok
  [Repeal (ARef (c56_ref (RId (u8 "1")) (RId (u8 "2")))) (Some (u8 "x y")); Repeal (ARef (c56_ref (RId (u8 "1")) (RId (u8 "2")))) (Some (u8 "z"));
   Repeal (ARef (c56_ref (RId (u8 "1")) (RId (u8 "3")))) (Some (u8 "x y")); Repeal (ARef (c56_ref (RId (u8 "1")) (RId (u8 "3")))) (Some (u8 "z"));
   Repeal (ARef (c56_ref (RId (u8 "6")) RNone)) (Some (u8 "x y")); Repeal (ARef (c56_ref (RId (u8 "6")) RNone)) (Some (u8 "z"))].
Proof. split; vm_compute; reflexivity. Qed.
Lemma c56_one t i a b s e : s <= a -> a < b -> b <= e -> reference_ok (mk_greference [mk_gpart t [mk_gsingle i (a, b)] []] (s, e)).
Proof.
  intros H1 H2 H3. split; [unfold span_ok; cbn; lia|]. split; [repeat constructor; cbn; lia|]. split; [repeat constructor|].
  intros [|? [|? ?]] x y l2 E; discriminate.
Qed.
Lemma c56_two i j a b a' b' s e : s <= a -> a < b -> b <= a' -> a' < b' -> b' <= e ->
  reference_ok (mk_greference [mk_gpart PArticle [mk_gsingle i (a, b)] []; mk_gpart PParagraph [mk_gsingle j (a', b')] []] (s, e)).
Proof.
  intros H1 H2 H3 H4 H5. split; [unfold span_ok; cbn; lia|]. split; [repeat constructor; cbn; lia|]. split.
  - repeat constructor. unfold apart. cbn. lia.
  - intros [|? [|? [|? ?]]] x y l2 E F; try discriminate. injection E as <- <- <-. destruct F as [F _]. discriminate.
Qed.
Definition c56_tree := GTree (GTextAmendment c56_act c56_refs c56_parts) [GTree GOther [GTree (GActReference c56_act) []]].
Example C56_tree_ex : exists l acts others, convert_depth_first c56_tree = Ok l /\ act_references l = Ok acts /\ element_references l = Ok others /\
  (length acts = 1 /\ length others = 3)%nat /\ Forall node_ok (post_order c56_tree).
Proof.
  do 3 eexists. split; [vm_compute; reflexivity|]. split; [vm_compute; reflexivity|]. split; [vm_compute; reflexivity|]. split; [split; reflexivity|].
  assert (A : act_ref_ok c56_act).
  { split; intros; [|discriminate]. injection H as <- <- <-. unfold span_ok. cbn. lia. }
  constructor; [exact A|]. constructor; [exact I|]. constructor; [|constructor]. split; [exact A|].
  constructor; [apply c56_two; cbn; lia|]. constructor; [apply c56_one; cbn; lia|]. constructor; [apply c56_one; cbn; lia|constructor].
Qed.

(* A list of articles in an amendment with a subtitle is an error (the same list is ignored in one
   without), and nothing of the text is analysed. *)
Theorem C56_subtitle_refuted : ~ forall a am l, block_to_block a (Some am) None = Ok l -> exists l', subtitle_to_block a None (Some am) None = Ok l'.
Proof.
  intros H. destruct (H c56_act (mk_greference [mk_gpart PArticle [mk_gsingle [u8 "1"] (25, 29); mk_gsingle [u8 "3"] (30, 33)] []] (25, 46)) []) as (l' & X).
  - vm_compute. reflexivity.
  - vm_compute in X. discriminate.
Qed.
Print Assumptions C56_subtitle_refuted.

(** C57 *)
Theorem C57_exact : forall g y m d, date_written g y m d ->
  (supported (mk_date y m d) -> convert_exact_date g = Ok (mk_date y m d)) /\
  (~ supported (mk_date y m d) -> exists e, convert_exact_date g = Err e).
Proof. exact exact_date. Qed.
Print Assumptions C57_exact.
Example C57_exact_ex : date_written (mk_gdate (u8 "2013") (u8 "szeptember") (u8 "07")) 2013 9 7 /\ supported (mk_date 2013 9 7) /\
  date_written (mk_gdate (u8 "2013") (u8 "február") (u8 "29")) 2013 2 29 /\ convert_exact_date (mk_gdate (u8 "2013") (u8 "február") (u8 "29")) = Err ValueError.
Proof.
  assert (N : forall s n, s <> [] -> forallb (fun c => (48 <=? c)%N && (c <=? 57)%N) s = true -> Z.of_N (digits_val s) = n -> numeral s n).
  { intros s n N F E. split; [exact N|]. split; [|exact E]. apply Forall_forall. rewrite forallb_forall in F. intros c Hc. specialize (F c Hc). lia. }
  split; [|split; [|split]].
  - split; [apply N; [discriminate|vm_compute; reflexivity..]|]. split; [apply N; [discriminate|vm_compute; reflexivity..]|]. split; [lia|vm_compute; reflexivity].
  - apply Date_ok. vm_compute. reflexivity.
  - split; [apply N; [discriminate|vm_compute; reflexivity..]|]. split; [apply N; [discriminate|vm_compute; reflexivity..]|]. split; [lia|vm_compute; reflexivity].
  - vm_compute. reflexivity.
Qed.
Theorem C57_days : forall f n, count_written (gf_as_number f) (gf_as_text f) n -> convert_after_publication_date f = Ok (EDaysAfterPublication n).
Proof. exact days_after. Qed.
Print Assumptions C57_days.
Theorem C57_next_day : convert_after_publication_date (mk_gafter None None) = Ok (EDaysAfterPublication 1).
Proof. exact day_after. Qed.
Print Assumptions C57_next_day.
Theorem C57_month : forall g n m, count_written (gy_day_as_number g) (gy_day_as_text g) n ->
  (gy_month g = None /\ m = 1 \/ exists s, gy_month g = Some s /\ s <> [] /\ ordinal_of m s) ->
  convert_day_in_month g = Ok (EDayInMonthAfterPublication n m).
Proof. exact day_in_month. Qed.
Print Assumptions C57_month.
(* every word that the grammar takes for an ordinal *)
Theorem C57_words : Forall (fun p => text_to_int_hun (fst p) = Ok (snd p)) grammar_ordinals.
Proof. exact grammar_ordinals_read. Qed.
Print Assumptions C57_words.
Example C57_month_ex : count_written (Some (u8 "15")) None 15 /\ ordinal_of 2 (u8 "második") /\
  convert_day_in_month (mk_gday (Some (u8 "második")) (Some (u8 "15")) None) = Ok (EDayInMonthAfterPublication 15 2).
Proof.
  split; [constructor; split; [discriminate|split; [|vm_compute; reflexivity]]; repeat constructor; cbn; lia|]. split; [|vm_compute; reflexivity]. split; [lia|vm_compute; reflexivity].
Qed.
Theorem C57_every_reference : forall refs exact after day repeal l, enforcement_to_enforcement refs exact after day repeal = Ok l ->
  exists date rep targets,
    (forall d, exact = Some d -> exists x, convert_exact_date d = Ok x /\ date = EDate x) /\
    (forall f, exact = None -> after = Some f -> convert_after_publication_date f = Ok date) /\
    (forall d, exact = None -> after = None -> day = Some d -> convert_day_in_month d = Ok date) /\
    (match repeal with None => rep = None | Some d => exists x, convert_exact_date d = Ok x /\ rep = Some x end) /\
    convert_multiple_in_text_references None refs = Ok targets /\
    l = match refs with
        | [] => [EnforcementDate None date rep]
        | _ => map (fun o => EnforcementDate (Some (or_reference o)) date rep) targets
        end.
Proof. exact enforcements. Qed.
Print Assumptions C57_every_reference.
Example C57_every_reference_ex : exists l,
  enforcement_to_enforcement c56_refs (Some (mk_gdate (u8 "2013") (u8 "szeptember") (u8 "7"))) None None (Some (mk_gdate (u8 "2014") (u8 "január") (u8 "1"))) = Ok l /\
  map (fun s => match s with EnforcementDate (Some r) (EDate d) (Some e) => Some (r_article r, d_day d, d_year e) | _ => None end) l =
  [Some (RId (u8 "1"), 7, 2014); Some (RId (u8 "1"), 7, 2014); Some (RId (u8 "6"), 7, 2014)].
Proof. eexists. split; vm_compute; reflexivity. Qed.
(* Days in a month are not checked. *)
Theorem C57_day_refuted : ~ forall g n m, convert_day_in_month g = Ok (EDayInMonthAfterPublication n m) -> 1 <= n <= 31.
Proof. intros H. specialize (H (mk_gday None (Some (u8 "45")) None) 45 1 eq_refl). lia. Qed.
Print Assumptions C57_day_refuted.
