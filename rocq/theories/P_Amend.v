(* C58: amendments, repeals and abbreviations name what the clause names. *)
From Verif Require Import PyBase NumModel NumSpec NumProofs IdModel RefModel StructModel StructSpec StructProofs3 TreeModel SemModel GramModel GramSpec GramProofs3 AmendSpec AmendProofs.
Local Open Scope Z_scope.

Theorem C58_act : forall a x, get_act_id a = Ok x <-> act_named a x.
Proof. exact act_ok. Qed.
Print Assumptions C58_act.
Theorem C58_place : forall act g p, place_named g p -> exists r, convert_structural_reference act g = Ok r /\ place_in act p r.
Proof. exact place_ok. Qed.
Print Assumptions C58_place.
(* what becomes of the reference if there is both: C41 *)
Theorem C58_block : forall a act am ins x y, act_named a act -> names_one act am x -> names_one act ins y ->
  block_to_block a am ins =
  match x, y with
  | Some x, Some y => s <- convert_amendment_and_insertion x y ;; Ok [s]
  | Some x, None => Ok [BlockAmendment (ARef x) false]
  | None, Some y => Ok [BlockAmendment (ARef y) true]
  | None, None => Ok []
  end.
Proof. exact block_ok. Qed.
Print Assumptions C58_block.
(* a subtitle that is amended or inserted together with an article is named by that article *)
Theorem C58_subtitle : forall a act g p am ins (insertion : bool) r, act_named a act ->
  match g with Some g => place_named g p | None => p = nowhere end ->
  names_one act (if insertion then ins else am) (Some r) -> (if insertion then am else ins) = None ->
  exists s, subtitle_to_block a g am ins = Ok [BlockAmendment (ASRef s) insertion] /\
    place_in act (match r_article r with
                  | RNone => p
                  | RId i | RRange i _ => mk_place None None None None None (Some (BEFORE_WITH_ARTICLE, i))
                  end) s.
Proof. exact subtitle_ok. Qed.
Print Assumptions C58_subtitle.
Theorem C58_structural : forall a act (insertion : bool) g p, act_named a act -> place_named g p ->
  exists s, structural_to_block a (if insertion then None else Some g) (if insertion then Some g else None) = Ok [BlockAmendment (ASRef s) insertion] /\
    place_in act p s.
Proof. exact structural_ok. Qed.
Print Assumptions C58_structural.
Theorem C58_repeal : forall a act g p, act_named a act -> place_named g p ->
  exists s, structural_repeal_to_repeal a g = Ok [Repeal (ASRef s) None] /\ place_in act p s.
Proof. exact structural_repeal_ok. Qed.
Print Assumptions C58_repeal.
Theorem C58_title : forall a article x y l, title_to_title a article x y = Ok l <->
  exists act old new, act_named a act /\ quote_says x old /\ quote_says y new /\
    l = [ArticleTitleAmendment (mk_ref (Some act) (RId (concat article)) RNone RNone RNone) old new].
Proof. exact title_ok. Qed.
Print Assumptions C58_title.
Theorem C58_abbreviation : forall a act, act_named a act ->
  act_reference_to_abbreviation a = Ok (match ga_from_now_on a with None => [] | Some s => [mk_abbreviation s act] end).
Proof. exact abbreviation_ok. Qed.
Print Assumptions C58_abbreviation.

(* "A Ptk. XIII/A. Fejezete", "a Ptk. Második Könyv XIV. Címe", "a Ptk. Harmadik Könyv Negyedik Része" *)
Definition c58_act := mk_gactref None (Some (u8 "Ptk.", (2, 6))) None.
Definition c58_quote s : g_quote := [Leaf (u8 "„"); Leaf (u8 " "); Leaf s; Leaf (u8 "”")].
Definition c58_article := mk_greference [mk_gpart PArticle [mk_gsingle [u8 "12"; u8 "/"; u8 "A"] (25, 29)] []] (25, 33).
Example C58_place_ex :
  place_named (GChapterNumber [u8 "XIII"; u8 "/A"]) (mk_place None None None (Some (u8 "13/A")) None None) /\
  place_named (GTitleNumber (Some (u8 "Második")) [u8 "XIV"]) (mk_place (Some (u8 "2")) None (Some (u8 "14")) None None None) /\
  place_named (GPartNumber (Some (u8 "Harmadik")) (u8 "Negyedik")) (mk_place (Some (u8 "3")) (Some (u8 "4")) None None None None) /\
  place_named (GSubtitleTitle None (Some (c58_quote (u8 "A cím")))) (mk_place None None None None (Some (u8 "A cím")) None).
Proof.
  assert (R : forall n p, 1 <= n -> p = u8 "/A" \/ p = [] -> roman_written (roman n ++ p) (str_of_int n ++ p)).
  { intros n p H P. exists n, p. split; [exact H|]. split; [|split; reflexivity].
    destruct P as [->| ->]; (split; [intros c t E; vm_compute in E; try discriminate E; injection E as <- <-|split; [|reflexivity]]); cbn; intuition discriminate || lia. }
  split; [|split; [|split]].
  - apply pn_chapter. exact (R 13 (u8 "/A") ltac:(lia) (or_introl eq_refl)).
  - apply pn_title; [exists 2; split; [apply ordinal_spec|]; vm_compute; reflexivity|exact (R 14 [] ltac:(lia) (or_intror eq_refl))].
  - apply (pn_part _ _ _ 4); [exists 3; split; [apply ordinal_spec|]; vm_compute; reflexivity|apply ordinal_spec; vm_compute; reflexivity].
  - apply pn_quote. exists [Leaf (u8 " "); Leaf (u8 "A cím")]. split; vm_compute; reflexivity.
Qed.
Example C58_ex : act_named c58_act (u8 "Ptk.") /\
  names_one (u8 "Ptk.") (Some c58_article) (Some (mk_ref (Some (u8 "Ptk.")) (RId (u8 "12/A")) RNone RNone RNone)) /\
  block_to_block c58_act (Some c58_article) None = Ok [BlockAmendment (ARef (mk_ref (Some (u8 "Ptk.")) (RId (u8 "12/A")) RNone RNone RNone)) false] /\
  subtitle_to_block c58_act (Some (GSubtitleNumber [u8 "5"])) None (Some c58_article) =
    Ok [BlockAmendment (ASRef (mk_sref (Some (u8 "Ptk.")) None None None None None (Some (mk_combo BEFORE_WITH_ARTICLE (u8 "12/A"))))) true] /\
  structural_to_block c58_act None (Some (GChapterNumber [u8 "XIII"])) =
    Ok [BlockAmendment (ASRef (mk_sref (Some (u8 "Ptk.")) None None None (Some (u8 "13")) None None)) true] /\
  title_to_title c58_act [u8 "5"] (c58_quote (u8 "régi")) (c58_quote (u8 "új")) =
    Ok [ArticleTitleAmendment (mk_ref (Some (u8 "Ptk.")) (RId (u8 "5")) RNone RNone RNone) (u8 "régi") (u8 "új")] /\
  act_reference_to_abbreviation (mk_gactref (Some (u8 "2013", u8 "V", (0, 20))) None (Some (u8 "Ptk."))) =
    Ok [mk_abbreviation (u8 "Ptk.") (u8 "2013. évi V. törvény")].
Proof.
  split; [constructor|]. split.
  - cbn [names_one]. eexists. split; [vm_compute; reflexivity|]. eexists. split; [reflexivity|]. vm_compute. reflexivity.
  - repeat split; vm_compute; reflexivity.
Qed.
