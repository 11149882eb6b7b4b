(* Proofs for C58. *)
From Verif Require Import PyBase PyBaseFacts NumModel NumSpec NumProofs IdModel RefModel StructModel StructSpec StructProofs3 TreeModel SemModel GramModel GramSpec
  GramProofs3 AmendSpec.
Local Open Scope Z_scope.

Lemma act_ok a x : get_act_id a = Ok x <-> act_named a x.
Proof.
  split.
  - destruct a as [[[[y n] sp]|] [[s p]|] now]; unfold get_act_id; cbn; intros H; try discriminate; injection H as <-; constructor.
  - intros []; reflexivity.
Qed.

Lemma roman_ok s i : roman_written s i -> roman_to_arabic_with_postfix s = Ok i.
Proof.
  intros (n & p & H & P & -> & ->). destruct P as (A & B & C). apply (postfix_roundtrip n p H A B).
Qed.
Lemma book_ok b j : book_written b j -> convert_book_id b = Ok j.
Proof.
  destruct b as [t|], j as [i|]; cbn [book_written]; try contradiction; [|reflexivity].
  intros (n & O & ->). cbn [convert_book_id identifier_from_string]. apply ordinal_spec in O. rewrite O. reflexivity.
Qed.
Lemma place_ok act g p : place_named g p -> exists r, convert_structural_reference act g = Ok r /\ place_in act p r.
Proof.
  intros []; cbn [convert_structural_reference identifier_from_string].
  - eexists. split; [reflexivity|]. repeat split.
  - apply quote_ok in H. rewrite H. eexists. split; [reflexivity|]. repeat split.
  - eexists. split; [reflexivity|]. repeat split.
  - eexists. split; [reflexivity|]. repeat split.
  - eexists. split; [reflexivity|]. repeat split.
  - rewrite (roman_ok _ _ H). eexists. split; [reflexivity|]. repeat split.
  - rewrite (book_ok _ _ H), (roman_ok _ _ H0). eexists. split; [reflexivity|]. repeat split.
  - apply ordinal_spec in H0. rewrite (book_ok _ _ H), H0. eexists. split; [reflexivity|]. repeat split.
Qed.

Lemma one_ok act g r : names_one act g r -> convert_potential_reference act g = Ok r.
Proof.
  destruct g as [g|]; cbn [names_one]; [|intros ->; reflexivity].
  intros (l & H & R). unfold convert_potential_reference, convert_potential_in_text_reference. rewrite H. cbn [bind].
  destruct r as [r|].
  - destruct R as (o & -> & <-). reflexivity.
  - destruct l as [|x [|y l]]; [reflexivity|exfalso; apply R; reflexivity|reflexivity].
Qed.
Lemma block_ok a act am ins x y : act_named a act -> names_one act am x -> names_one act ins y ->
  block_to_block a am ins =
  match x, y with
  | Some x, Some y => s <- convert_amendment_and_insertion x y ;; Ok [s]
  | Some x, None => Ok [BlockAmendment (ARef x) false]
  | None, Some y => Ok [BlockAmendment (ARef y) true]
  | None, None => Ok []
  end.
Proof.
  intros A X Y. apply act_ok in A. apply one_ok in X, Y. unfold block_to_block. rewrite A. cbn [bind]. rewrite X. cbn [bind]. rewrite Y. cbn [bind].
  destruct x, y; reflexivity.
Qed.
Lemma subtitle_ok a act g p am ins (insertion : bool) r : act_named a act ->
  match g with Some g => place_named g p | None => p = nowhere end ->
  names_one act (if insertion then ins else am) (Some r) -> (if insertion then am else ins) = None ->
  exists s, subtitle_to_block a g am ins = Ok [BlockAmendment (ASRef s) insertion] /\
    place_in act (match r_article r with
                  | RNone => p
                  | RId i | RRange i _ => mk_place None None None None None (Some (BEFORE_WITH_ARTICLE, i))
                  end) s.
Proof.
  intros A G X Y. assert (S : exists sr, (match g with
         | Some s => convert_structural_reference act s
         | None => Ok (mk_sref (Some act) None None None None None None)
         end) = Ok sr /\ place_in act p sr).
  { destruct g as [g|]; [apply place_ok; exact G|]. subst p. eexists. split; [reflexivity|]. repeat split. }
  destruct S as (sr & S & P). apply act_ok in A.
  assert (R : r_act r = Some act).
  { assert (N : forall g, names_one act g (Some r) -> r_act r = Some act).
    { intros [g'|]; cbn [names_one]; [|discriminate]. intros (l & X' & o & -> & <-). apply convert_single_act in X'. inversion X'. assumption. }
    destruct insertion; exact (N _ X). }
  assert (B : forall e, subtitle_block sr (Some r) e = Ok (BlockAmendment (ASRef (match r_article r with RNone => sr | RId i | RRange i _ =>
     mk_sref (r_act r) None None None None None (Some (mk_combo BEFORE_WITH_ARTICLE i)) end)) e)).
  { intros e. unfold subtitle_block. destruct (r_article r); reflexivity. }
  exists (match r_article r with RNone => sr | RId i | RRange i _ => mk_sref (r_act r) None None None None None (Some (mk_combo BEFORE_WITH_ARTICLE i)) end).
  split.
  - unfold subtitle_to_block. rewrite A. cbn [bind]. rewrite S. cbn [bind].
    destruct insertion; apply one_ok in X; rewrite Y; [|rewrite X; cbn [bind]]; cbn [convert_potential_reference convert_potential_in_text_reference bind option_map];
      [rewrite X; cbn [bind]|]; rewrite B; reflexivity.
  - destruct (r_article r); [exact P|..]; repeat split; exact R.
Qed.
Lemma structural_ok a act (insertion : bool) g p : act_named a act -> place_named g p ->
  exists s, structural_to_block a (if insertion then None else Some g) (if insertion then Some g else None) = Ok [BlockAmendment (ASRef s) insertion] /\ place_in act p s.
Proof.
  intros A P. apply act_ok in A. destruct (place_ok act g p P) as (r & R & I). exists r. split; [|exact I].
  unfold structural_to_block. rewrite A. cbn [bind]. destruct insertion; rewrite R; reflexivity.
Qed.
Lemma structural_repeal_ok a act g p : act_named a act -> place_named g p ->
  exists s, structural_repeal_to_repeal a g = Ok [Repeal (ASRef s) None] /\ place_in act p s.
Proof.
  intros A P. apply act_ok in A. destruct (place_ok act g p P) as (r & R & I). exists r. split; [|exact I].
  unfold structural_repeal_to_repeal. rewrite A. cbn [bind]. rewrite R. reflexivity.
Qed.
Lemma title_ok a article x y l : title_to_title a article x y = Ok l <->
  exists act old new, act_named a act /\ quote_says x old /\ quote_says y new /\
    l = [ArticleTitleAmendment (mk_ref (Some act) (RId (concat article)) RNone RNone RNone) old new].
Proof.
  unfold title_to_title. split.
  - intros H. apply bind_ok in H as (act & A & H). apply bind_ok in H as (old & X & H). apply bind_ok in H as (new & Y & H). injection H as <-.
    exists act, old, new. apply act_ok in A. apply quote_ok in X, Y. repeat split; assumption.
  - intros (act & old & new & A & X & Y & ->). apply act_ok in A. apply quote_ok in X, Y. rewrite A. cbn [bind]. rewrite X. cbn [bind]. rewrite Y. reflexivity.
Qed.
Lemma abbreviation_ok a act : act_named a act ->
  act_reference_to_abbreviation a = Ok (match ga_from_now_on a with None => [] | Some s => [mk_abbreviation s act] end).
Proof. intros A. apply act_ok in A. unfold act_reference_to_abbreviation. rewrite A. destruct (ga_from_now_on a); reflexivity. Qed.
