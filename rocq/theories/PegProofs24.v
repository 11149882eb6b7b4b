(* Parts of references, read forwards. *)
From Verif Require Import PyBase PyBaseFacts UnicodeAlnum NumModel IdModel LineModel DateModel RefModel TreeModel StructModel SemModel GramModel GramSpec PegModel PegSpec PegSpec2 PegProofs PegProofs2 PegProofs22 PegProofs23.
From Coq Require Import Lia.
Local Open Scope Z_scope.

Definition single_parser (t : part_type) : parser (list pystr) :=
  match t with
  | PArticle => a <~ g_article_id ;; p_tok (u8 ".") ;~ p_ret a
  | PParagraph => p_tok (u8 "(") ;~ a <~ g_paragraph_id ;; p_tok (u8 ")") ;~ p_ret a
  | PAlphabeticPoint => a <~ g_alphabetic_point_id ;; p_tok (u8 ")") ;~ p_ret a
  | PNumericPoint => a <~ g_numeric_point_id ;; p_tok (u8 ".") ;~ p_ret a
  | PAlphabeticSubpoint => a <~ g_alphabetic_subpoint_id ;; p_tok (u8 ")") ;~ p_ret a
  | PNumericSubpoint => a <~ g_numeric_subpoint_id ;; p_tok (u8 ".") ;~ p_ret a
  end.
Definition range_parser (t : part_type) : parser (list pystr * list pystr) :=
  match t with
  | PArticle => a <~ g_article_id ;; p_opt (p_tok (u8 ".") ;~ g_article_suffix) ;~ g_dash ;~
       b <~ g_article_id ;; p_tok (u8 ".") ;~ p_ret (a, b)
  | PParagraph => p_tok (u8 "(") ;~ a <~ g_paragraph_id ;; p_tok (u8 ")") ;~ g_dash ;~
       p_tok (u8 "(") ;~ b <~ g_paragraph_id ;; p_tok (u8 ")") ;~ p_ret (a, b)
  | PAlphabeticPoint => a <~ g_alphabetic_point_id ;; p_opt (p_tok (u8 ")")) ;~ g_dash ;~
       b <~ g_alphabetic_point_id ;; p_tok (u8 ")") ;~ p_ret (a, b)
  | PNumericPoint => a <~ g_numeric_point_id ;; g_dash ;~ b <~ g_numeric_point_id ;; p_tok (u8 ".") ;~ p_ret (a, b)
  | PAlphabeticSubpoint => a <~ g_alphabetic_subpoint_id ;; p_tok (u8 ")") ;~ g_dash ;~
       b <~ g_alphabetic_subpoint_id ;; p_tok (u8 ")") ;~ p_ret (a, b)
  | PNumericSubpoint => a <~ g_numeric_subpoint_id ;; g_dash ;~ b <~ g_numeric_subpoint_id ;; p_tok (u8 ".") ;~ p_ret (a, b)
  end.
Section Total.
Variable total : Z.
Definition part_parser (t : part_type) : parser g_part :=
  match t with
  | PArticle => g_article_reference total
  | PParagraph => g_paragraph_reference total
  | PAlphabeticPoint => g_alphabetic_point_reference total
  | PNumericPoint => g_numeric_point_reference total
  | PAlphabeticSubpoint => g_alphabetic_subpoint_reference total
  | PNumericSubpoint => g_numeric_subpoint_reference total
  end.
Lemma part_parser_eq t : part_parser t = g_part_rule total t (range_parser t) (single_parser t) (unit_parser t).
Proof. destruct t; reflexivity. Qed.

(** * Items *)

Lemma tok_dot s : p_tok (u8 ".") (46%N :: s) = Some (u8 ".", s). Proof. reflexivity. Qed.
Lemma tok_close s : p_tok (u8 ")") (41%N :: s) = Some (u8 ")", s). Proof. reflexivity. Qed.
Lemma tok_open s : p_tok (u8 "(") (40%N :: s) = Some (u8 "(", s). Proof. reflexivity. Qed.
Lemma single_reads t i s : part_id t i -> exists l, single_parser t (one_text t i ++ s) = Some (l, s) /\ concat l = i.
Proof.
  intros I. destruct t; cbn [single_parser one_text]; rewrite <- ?app_assoc; cbn [app].
  - destruct (id_reads PArticle i (46%N :: s) I (stop_dot s)) as (l & E & C). exists l. split; [|exact C]. cbn [id_parser] in E. now rewrite (bind_yes _ _ _ _ _ E), (bind_yes _ _ _ _ _ (tok_dot s)).
  - destruct (id_reads PParagraph i (41%N :: s) I (stop_paren s)) as (l & E & C). exists l. split; [|exact C]. cbn [id_parser] in E. now rewrite (bind_yes _ _ _ _ _ (tok_open _)), (bind_yes _ _ _ _ _ E), (bind_yes _ _ _ _ _ (tok_close s)).
  - destruct (id_reads PAlphabeticPoint i (41%N :: s) I (stop_paren s)) as (l & E & C). exists l. split; [|exact C]. cbn [id_parser] in E. now rewrite (bind_yes _ _ _ _ _ E), (bind_yes _ _ _ _ _ (tok_close s)).
  - destruct (id_reads PNumericPoint i (46%N :: s) I (stop_dot s)) as (l & E & C). exists l. split; [|exact C]. cbn [id_parser] in E. now rewrite (bind_yes _ _ _ _ _ E), (bind_yes _ _ _ _ _ (tok_dot s)).
  - destruct (id_reads PAlphabeticSubpoint i (41%N :: s) I (stop_paren s)) as (l & E & C). exists l. split; [|exact C]. cbn [id_parser] in E. now rewrite (bind_yes _ _ _ _ _ E), (bind_yes _ _ _ _ _ (tok_close s)).
  - destruct (id_reads PNumericSubpoint i (46%N :: s) I (stop_dot s)) as (l & E & C). exists l. split; [|exact C]. cbn [id_parser] in E. now rewrite (bind_yes _ _ _ _ _ E), (bind_yes _ _ _ _ _ (tok_dot s)).
Qed.
Lemma lc_dash d s : is_dash d -> lc (d :: s) = d. Proof. intros D. apply lc_solid. now apply dash_chr in D. Qed.
Lemma range_reads t i d j s : part_id t i -> part_id t j -> is_dash d ->
  exists a b, range_parser t (range_text t i d j ++ s) = Some ((a, b), s) /\ concat a = i /\ concat b = j.
Proof.
  intros I J D. destruct t; cbn [range_parser range_text]; rewrite <- ?app_assoc; cbn [app].
  - destruct (id_reads PArticle i (d :: j ++ 46%N :: s) I (stop_dash _ _ D)) as (a & E & A). destruct (id_reads PArticle j (46%N :: s) J (stop_dot s)) as (b & F & B). cbn [id_parser] in E, F.
    exists a, b. split; [|auto]. rewrite (bind_yes _ _ _ _ _ E). rewrite (bind_yes _ _ _ None (d :: j ++ 46%N :: s)).
    + now rewrite (bind_yes _ _ _ _ _ (dash_yes d _ D)), (bind_yes _ _ _ _ _ F), (bind_yes _ _ _ _ _ (tok_dot s)).
    + apply opt_no, bind_no, tok_no. rewrite lc_dash by exact D. now apply dash_chr in D.
  - destruct (id_reads PParagraph i (41%N :: d :: 40%N :: j ++ 41%N :: s) I (stop_paren _)) as (a & E & A). destruct (id_reads PParagraph j (41%N :: s) J (stop_paren s)) as (b & F & B). cbn [id_parser] in E, F.
    exists a, b. split; [|auto]. now rewrite (bind_yes _ _ _ _ _ (tok_open _)), (bind_yes _ _ _ _ _ E), (bind_yes _ _ _ _ _ (tok_close _)), (bind_yes _ _ _ _ _ (dash_yes d _ D)), (bind_yes _ _ _ _ _ (tok_open _)), (bind_yes _ _ _ _ _ F), (bind_yes _ _ _ _ _ (tok_close s)).
  - destruct (id_reads PAlphabeticPoint i (41%N :: d :: j ++ 41%N :: s) I (stop_paren _)) as (a & E & A). destruct (id_reads PAlphabeticPoint j (41%N :: s) J (stop_paren s)) as (b & F & B). cbn [id_parser] in E, F.
    exists a, b. split; [|auto]. now rewrite (bind_yes _ _ _ _ _ E), (bind_yes _ _ _ _ _ (opt_yes _ _ _ _ (tok_close _))), (bind_yes _ _ _ _ _ (dash_yes d _ D)), (bind_yes _ _ _ _ _ F), (bind_yes _ _ _ _ _ (tok_close s)).
  - destruct (id_reads PNumericPoint i (d :: j ++ 46%N :: s) I (stop_dash _ _ D)) as (a & E & A). destruct (id_reads PNumericPoint j (46%N :: s) J (stop_dot s)) as (b & F & B). cbn [id_parser] in E, F.
    exists a, b. split; [|auto]. now rewrite (bind_yes _ _ _ _ _ E), (bind_yes _ _ _ _ _ (dash_yes d _ D)), (bind_yes _ _ _ _ _ F), (bind_yes _ _ _ _ _ (tok_dot s)).
  - destruct (id_reads PAlphabeticSubpoint i (41%N :: d :: j ++ 41%N :: s) I (stop_paren _)) as (a & E & A). destruct (id_reads PAlphabeticSubpoint j (41%N :: s) J (stop_paren s)) as (b & F & B). cbn [id_parser] in E, F.
    exists a, b. split; [|auto]. now rewrite (bind_yes _ _ _ _ _ E), (bind_yes _ _ _ _ _ (tok_close _)), (bind_yes _ _ _ _ _ (dash_yes d _ D)), (bind_yes _ _ _ _ _ F), (bind_yes _ _ _ _ _ (tok_close s)).
  - destruct (id_reads PNumericSubpoint i (d :: j ++ 46%N :: s) I (stop_dash _ _ D)) as (a & E & A). destruct (id_reads PNumericSubpoint j (46%N :: s) J (stop_dot s)) as (b & F & B). cbn [id_parser] in E, F.
    exists a, b. split; [|auto]. now rewrite (bind_yes _ _ _ _ _ E), (bind_yes _ _ _ _ _ (dash_yes d _ D)), (bind_yes _ _ _ _ _ F), (bind_yes _ _ _ _ _ (tok_dot s)).
Qed.
(* what comes after an item that is not a range *)
Definition no_dash_after (t : part_type) (s : pystr) : Prop :=
  ~ is_dash (lc s) /\ (t = PArticle -> forall x r, g_article_suffix s = Some (x, r) -> ~ is_dash (lc r)).
Lemma not_a_range t i s : part_id t i -> no_dash_after t s -> range_parser t (one_text t i ++ s) = None.
Proof.
  intros I [N M]. assert (DD : ~ is_dash 46) by (unfold is_dash; cbn; intuition discriminate). destruct t; cbn [range_parser one_text]; rewrite <- ?app_assoc; cbn [app].
  - destruct (id_reads PArticle i (46%N :: s) I (stop_dot s)) as (l & E & C). cbn [id_parser] in E. rewrite (bind_yes _ _ _ _ _ E). destruct (g_article_suffix s) as [[x r]|] eqn:G.
    + rewrite (bind_yes _ _ _ (Some x) r); [|apply opt_yes; now rewrite (bind_yes _ _ _ _ _ (tok_dot s))]. apply bind_no, dash_no. exact (M eq_refl x r eq_refl).
    + rewrite (bind_yes _ _ _ None (46%N :: s)); [|apply opt_no; now rewrite (bind_yes _ _ _ _ _ (tok_dot s))]. apply bind_no, dash_no. exact DD.
  - destruct (id_reads PParagraph i (41%N :: s) I (stop_paren s)) as (l & E & C). cbn [id_parser] in E. rewrite (bind_yes _ _ _ _ _ (tok_open _)), (bind_yes _ _ _ _ _ E), (bind_yes _ _ _ _ _ (tok_close s)). now apply bind_no, dash_no.
  - destruct (id_reads PAlphabeticPoint i (41%N :: s) I (stop_paren s)) as (l & E & C). cbn [id_parser] in E. rewrite (bind_yes _ _ _ _ _ E), (bind_yes _ _ _ _ _ (opt_yes _ _ _ _ (tok_close s))). now apply bind_no, dash_no.
  - destruct (id_reads PNumericPoint i (46%N :: s) I (stop_dot s)) as (l & E & C). cbn [id_parser] in E. rewrite (bind_yes _ _ _ _ _ E). now apply bind_no, dash_no.
  - destruct (id_reads PAlphabeticSubpoint i (41%N :: s) I (stop_paren s)) as (l & E & C). cbn [id_parser] in E. rewrite (bind_yes _ _ _ _ _ E), (bind_yes _ _ _ _ _ (tok_close s)). now apply bind_no, dash_no.
  - destruct (id_reads PNumericSubpoint i (46%N :: s) I (stop_dot s)) as (l & E & C). cbn [id_parser] in E. rewrite (bind_yes _ _ _ _ _ E). now apply bind_no, dash_no.
Qed.

(* text on which no item begins *)
Lemma nothing_numeric t s : c_09 (lc s) = false -> In t [PArticle; PNumericPoint; PNumericSubpoint] -> range_parser t s = None /\ single_parser t s = None.
Proof.
  intros C H. assert (A : g_article_id s = None).
  { unfold g_article_id, p_rule, g_article_id_group. rewrite <- lc_ws in C. rewrite (bind_yes _ _ _ None (ws s)) by (apply opt_no, bind_no; now apply number_no). apply bind_no. now apply number_no. }
  assert (B : g_numeric_point_id s = None) by (unfold g_numeric_point_id, p_rule; rewrite <- lc_ws in C; apply bind_no; now apply number_no).
  assert (D : g_numeric_subpoint_id s = None) by (unfold g_numeric_subpoint_id, p_rule; rewrite <- lc_ws in C; apply (map_no (fun x => [x])); now apply number_no).
  destruct H as [<-|[<-|[<-|[]]]]; (split; now apply bind_no).
Qed.
Lemma nothing_paragraph s : lc s <> 40%N -> range_parser PParagraph s = None /\ single_parser PParagraph s = None.
Proof. intros H. split; apply bind_no; now apply tok_no. Qed.
Lemma nothing_letter t s : c_az (lc s) = false -> In t [PAlphabeticPoint; PAlphabeticSubpoint] -> range_parser t s = None /\ single_parser t s = None.
Proof.
  intros C H. assert (A : g_alphabetic_point_id s = None).
  { unfold g_alphabetic_point_id, p_rule. apply (map_no (fun x => [x])). rewrite or_no.
    - rewrite re_set. unfold lc in C. destruct (ws s) as [|c r]; [reflexivity|]. cbn [hd] in C. now rewrite C.
    - rewrite or_no; apply tok_no; rewrite lc_ws; intros E; rewrite E in C; discriminate. }
  assert (B : g_alphabetic_subpoint_id s = None).
  { unfold g_alphabetic_subpoint_id, p_rule. apply (map_no (fun x => [x])). unfold p_re. cbn [r_match]. unfold lc in C. destruct (ws s) as [|c r]; [reflexivity|]. cbn [hd] in C. now rewrite C. }
  destruct H as [<-|[<-|[]]]; (split; now apply bind_no).
Qed.
(* a unit is no item *)
Lemma unit_no_item t u : In u [u8 "§"; u8 "bekezdés"; u8 "pont"; u8 "alpont"] -> forall s, range_parser t (u ++ s) = None /\ single_parser t (u ++ s) = None.
Proof.
  intros H s. destruct t.
  1,4,6: apply nothing_numeric; [|cbn; tauto]; repeat (destruct H as [<-|H]; [reflexivity|]); destruct H.
  1: apply nothing_paragraph; repeat (destruct H as [<-|H]; [discriminate|]); destruct H.
  all: repeat (destruct H as [<-|H]; [split; reflexivity|]); destruct H.
Qed.
Lemma unit_lc t e s : lc (u8 " " ++ unit_text t ++ e ++ s) = hd 0%N (unit_text t).
Proof. destruct t; reflexivity. Qed.

(** * Parts *)

Definition says_part (t : part_type) (p : rpart) (g : g_part) : Prop :=
  match p with
  | RNone => False
  | RId i => exists l sp, g = mk_gpart t [mk_gsingle l sp] [] /\ concat l = i
  | RRange i j => exists a b sp, g = mk_gpart t [] [mk_grange a b sp] /\ concat a = i /\ concat b = j
  end.
Definition item_parser (t : part_type) : parser ((list pystr * list pystr) * span + list pystr * span) :=
  p_map inl (p_span total (range_parser t)) <|> p_map inr (p_span total (single_parser t)).
Lemma item_no t s : range_parser t (ws s) = None -> single_parser t (ws s) = None -> item_parser t s = None.
Proof. intros R S. unfold item_parser. rewrite or_no by (apply map_no; now apply span_no). apply map_no. now apply span_no. Qed.
Definition says_item (p : rpart) (x : (list pystr * list pystr) * span + list pystr * span) : Prop :=
  match p, x with
  | RId i, inr (l, _) => concat l = i
  | RRange i j, inl ((a, b), _) => concat a = i /\ concat b = j
  | _, _ => False
  end.
Lemma solid_item t p x s : item_written t p x -> ws (x ++ s) = x ++ s.
Proof.
  assert (D : forall i s, digits i -> ws (i ++ s) = i ++ s) by (intros; now apply ws_digits).
  assert (L : forall c s, is_small c -> ws (c :: s) = c :: s) by (intros; apply ws_solid_head; now apply small_solid).
  assert (P : forall i s, part_id t i -> match t with PParagraph => True | _ => ws (i ++ s) = i ++ s end).
  { intros i r I. destruct t; cbn [part_id] in I; [|exact Logic.I|..].
    - destruct I; rewrite <- ?app_assoc; now apply D.
    - destruct I as [(c & -> & C)|[->| ->]]; [now apply L|reflexivity|reflexivity].
    - destruct I; rewrite <- ?app_assoc; now apply D.
    - destruct I as (c & l & -> & C & _). now apply L.
    - now apply D. }
  intros W. destruct W as [i I|i d j I J Dd].
  - specialize (P i (match t with PAlphabeticPoint | PAlphabeticSubpoint => 41%N | _ => 46%N end :: s) I). destruct t; cbn [one_text]; rewrite <- ?app_assoc; cbn [app] in *; try exact P. now apply ws_solid_head.
  - destruct t; cbn [range_text]; rewrite <- ?app_assoc; cbn [app].
    2: now apply ws_solid_head.
    all: apply (P i _ I).
Qed.
Lemma item_reads t p x s : item_written t p x -> no_dash_after t s -> exists y, item_parser t (x ++ s) = Some (y, s) /\ says_item p y.
Proof.
  intros W N. pose proof (solid_item t p x s W) as E. destruct W as [i I|i d j I J D]; unfold item_parser.
  - destruct (single_reads t i s I) as (l & R & C). rewrite or_no. { eexists. split; [apply map_yes, span_yes; rewrite E; exact R|exact C]. }
    apply map_no, span_no. rewrite E. now apply not_a_range.
  - destruct (range_reads t i d j s I J D) as (a & b & R & A & B). eexists. split; [apply or_yes, map_yes, span_yes; rewrite E; exact R|]. now split.
Qed.
Lemma part_reads t p w s : part_written t p w -> gap s -> ~ is_dash (lc s) -> exists g, part_parser t (w ++ s) = Some (g, s) /\ says_part t p g.
Proof.
  intros (x & e & W & E & ->) G N. set (s0 := u8 " " ++ unit_text t ++ e ++ s). replace ((x ++ u8 " " ++ unit_text t ++ e) ++ s) with (x ++ s0) by (unfold s0; now rewrite <- !app_assoc).
  destruct (unit_reads t e s E G) as (y & Y). fold s0 in Y.
  assert (NL : lc s0 = hd 0%N (unit_text t)) by apply unit_lc.
  assert (ND : no_dash_after t s0).
  { split; [rewrite NL; destruct t; cbn; intuition discriminate|]. intros -> z r Z. cbn [unit_parser] in Y. rewrite Y in Z. now injection Z as _ <-. }
  destruct (item_reads t p x s0 W ND) as (z & Z & S).
  assert (SEP : g_separator s0 = Some (tt, s0)) by (apply separator_no; rewrite NL; destruct t; cbn; intuition discriminate).
  assert (NI : item_parser t s0 = None).
  { assert (U : In (unit_text t) [u8 "§"; u8 "bekezdés"; u8 "pont"; u8 "alpont"]) by (destruct t; cbn; tauto). pose proof (unit_no_item t (unit_text t) U (e ++ s)) as [U1 U2].
    assert (V : ws s0 = unit_text t ++ e ++ s) by (destruct t; reflexivity). apply item_no; rewrite V; assumption. }
  rewrite part_parser_eq. unfold g_part_rule, p_rule. rewrite (solid_item t p x s0 W). fold (item_parser t).
  assert (M : p_many1 (x <~ item_parser t ;; g_separator ;~ p_ret x) (x ++ s0) = Some ([z], s0)).
  { apply many1_one; [now rewrite (bind_yes _ _ _ _ _ Z), (bind_yes _ _ _ _ _ SEP)|now apply bind_no]. }
  rewrite (bind_yes _ _ _ _ _ M), (bind_yes _ _ _ _ _ Y). eexists. split; [reflexivity|].
  destruct p as [|i|i j]; [destruct z as [[[a b] sp]|[l sp]]; exact S|..].
  - destruct z as [[[a b] sp]|[l sp]]; [destruct S|]. exists l, sp. now split.
  - destruct z as [[[a b] sp]|[l sp]]; [|destruct S]. exists a, b, sp. now split.
Qed.

(** * Parts of other kinds *)

Lemma part_nothing t s : range_parser t (ws s) = None /\ single_parser t (ws s) = None -> part_parser t s = None.
Proof.
  intros [R S]. rewrite part_parser_eq. unfold g_part_rule, p_rule. fold (item_parser t). apply bind_no, many1_no, bind_no, item_no; now rewrite ws_idem.
Qed.
(* an item of this kind, but not the unit *)
Lemma part_other t s x r : item_parser t (ws s) = Some (x, r) -> g_separator r = Some (tt, r) -> item_parser t r = None -> unit_parser t r = None -> part_parser t s = None.
Proof.
  intros I S N U. rewrite part_parser_eq. unfold g_part_rule, p_rule. fold (item_parser t).
  assert (M : p_many1 (x <~ item_parser t ;; g_separator ;~ p_ret x) (ws s) = Some ([x], r)).
  { apply many1_one; [now rewrite (bind_yes _ _ _ _ _ I), (bind_yes _ _ _ _ _ S)|now apply bind_no]. }
  now rewrite (bind_yes _ _ _ _ _ M), (bind_no _ _ _ U).
Qed.
Lemma unit_foreign t t' e s : hd 0%N (unit_text t) <> hd 0%N (unit_text t') -> unit_parser t (u8 " " ++ unit_text t' ++ e ++ s) = None.
Proof.
  intros H. rewrite <- (unit_lc t' e s) in H. destruct t; cbn [unit_parser unit_text hd] in *; [apply sign_no; congruence|..];
    (apply unit_no; intros E; apply H; now rewrite E).
Qed.
(* the same item can be read, but the unit is another *)
Lemma same_items t t' p x e s : item_written t p x -> hd 0%N (unit_text t) <> hd 0%N (unit_text t') -> part_parser t ((x ++ u8 " " ++ unit_text t' ++ e) ++ s) = None.
Proof.
  intros W H. set (s0 := u8 " " ++ unit_text t' ++ e ++ s). replace ((x ++ u8 " " ++ unit_text t' ++ e) ++ s) with (x ++ s0) by (unfold s0; now rewrite <- !app_assoc).
  assert (UN : unit_parser t s0 = None) by now apply unit_foreign. assert (NL : lc s0 = hd 0%N (unit_text t')) by apply unit_lc.
  assert (ND : no_dash_after t s0).
  { split; [rewrite NL; destruct t'; cbn; intuition discriminate|]. intros -> z r Z. cbn [unit_parser] in UN. congruence. }
  destruct (item_reads t p x s0 W ND) as (z & Z & S). apply (part_other t (x ++ s0) z s0); [rewrite (solid_item t p x s0 W); exact Z| |..].
  - apply separator_no; rewrite NL; destruct t'; cbn; intuition discriminate.
  - assert (UI : In (unit_text t') [u8 "§"; u8 "bekezdés"; u8 "pont"; u8 "alpont"]) by (destruct t'; cbn; tauto). pose proof (unit_no_item t (unit_text t') UI (e ++ s)) as [UA UB].
    assert (V : ws s0 = unit_text t' ++ e ++ s) by (destruct t'; reflexivity). apply item_no; rewrite V; assumption.
  - exact UN.
Qed.

(* 5a, 5/a are no articles *)
Definition lettered (s : pystr) : Prop := exists c r, (s = c :: r \/ s = 47%N :: c :: r) /\ is_small c.
Lemma lettered_article n s : digits n -> lettered s -> g_article_id (n ++ s) = Some ([n], s).
Proof.
  intros D (c & r & H & C). assert (X : match s with x :: _ => c_09 x = false /\ isspace_chr x = false /\ x <> 58%N /\ (x = 47%N \/ x <> 47%N) | [] => False end).
  { destruct H as [->| ->]; [|repeat split; (discriminate || (left; reflexivity) || reflexivity)]. unfold is_small in C. split; [unfold c_09; lia|]. split; [now apply small_solid|]. split; lia. }
  destruct s as [|x s]; [destruct X|]. destruct X as (X1 & X2 & X3 & _). unfold g_article_id, p_rule. rewrite ws_digits by exact D. unfold g_article_id_group.
  rewrite (bind_yes _ _ _ None (n ++ x :: s)). 2: { apply opt_no. rewrite (bind_yes _ _ _ _ _ (number_yes n (x :: s) D X1)). apply bind_no, tok_no. now rewrite lc_solid. }
  rewrite (bind_yes _ _ _ _ _ (number_yes n (x :: s) D X1)). rewrite (bind_yes _ _ _ None (x :: s)); [reflexivity|]. apply opt_no. destruct H as [E|E].
  - injection E as -> ->. apply bind_no, tok_no. rewrite lc_solid by exact X2. unfold is_small in C. lia.
  - injection E as -> ->. rewrite (bind_yes _ _ _ (u8 "/") (c :: r)) by reflexivity. apply bind_no. rewrite re_set. replace (c_AZ c) with false; [reflexivity|]. unfold is_small in C. unfold c_AZ. lia.
Qed.
Lemma lettered_lc s : lettered s -> (is_small (lc s) \/ lc s = 47%N).
Proof. intros (c & r & [->| ->] & C); [left; rewrite lc_solid by (now apply small_solid); exact C|right; reflexivity]. Qed.
Lemma lettered_facts s : lettered s -> lc s <> 46%N /\ ~ is_dash (lc s).
Proof.
  intros L. apply lettered_lc in L as [L| ->]; [|split; [discriminate|cbn; intuition discriminate]]. split; [unfold is_small in L; lia|]. intros D. apply dash_chr in D as (_ & _ & D & _). now rewrite small_b in D.
Qed.
Lemma point_number_cases i s : point_number i -> digits i \/ exists n r, i ++ s = n ++ r /\ digits n /\ lettered r.
Proof.
  intros [n D|n c D C|n c D C]; [now left|right|right]; exists n.
  - exists (c :: s). rewrite <- app_assoc. split; [reflexivity|]. split; [exact D|]. exists c, s. auto.
  - exists (47%N :: c :: s). rewrite <- app_assoc. split; [reflexivity|]. split; [exact D|]. exists c, s. auto.
Qed.
Lemma article_not_point p x e s : item_written PNumericPoint p x -> part_parser PArticle ((x ++ u8 " pont" ++ e) ++ s) = None.
Proof.
  intros W. assert (E : ws ((x ++ u8 " pont" ++ e) ++ s) = (x ++ u8 " pont" ++ e) ++ s) by (rewrite <- app_assoc; eapply solid_item; exact W).
  assert (NOTHING : forall n r, digits n -> lettered r -> range_parser PArticle (n ++ r) = None /\ single_parser PArticle (n ++ r) = None).
  { intros n r D L. pose proof (lettered_facts r L) as [F1 F2]. cbn [range_parser single_parser]. rewrite !(bind_yes _ _ _ _ _ (lettered_article n r D L)). split.
    - rewrite (bind_yes _ _ _ None r) by (apply opt_no, bind_no; now apply tok_no). apply bind_no. now apply dash_no.
    - apply bind_no. now apply tok_no. }
  destruct W as [i I|i d j I J D]; cbn [one_text range_text] in *.
  - destruct (point_number_cases i (u8 "." ++ (u8 " pont" ++ e) ++ s) I) as [I'|(n & r & F & N & L)].
    + apply (same_items PArticle PNumericPoint (RId i) (i ++ u8 ".")); [apply (iw_one PArticle); now constructor|discriminate].
    + apply part_nothing. rewrite E. rewrite <- !app_assoc in *. rewrite F. now apply NOTHING.
  - destruct (point_number_cases i ([d] ++ j ++ u8 "." ++ (u8 " pont" ++ e) ++ s) I) as [I'|(n & r & F & N & L)].
    + destruct (point_number_cases j (u8 "." ++ (u8 " pont" ++ e) ++ s) J) as [J'|(n & r & F & N & L)].
      * apply (same_items PArticle PNumericPoint (RRange i j) (i ++ [d] ++ j ++ u8 ".")); [apply (iw_range PArticle); [now constructor|now constructor|exact D]|discriminate].
      * apply part_nothing. rewrite E. rewrite <- !app_assoc in *. rewrite F. pose proof (lettered_facts r L) as [F1 F2]. cbn [app].
        destruct (article_reads i (d :: n ++ r) (as_plain i I') (stop_dash _ _ D)) as (a & A & _). cbn [range_parser single_parser]. rewrite !(bind_yes _ _ _ _ _ A). split.
        -- rewrite (bind_yes _ _ _ None (d :: n ++ r)) by (apply opt_no, bind_no, tok_no; rewrite lc_dash by exact D; now apply dash_chr in D).
           rewrite (bind_yes _ _ _ _ _ (dash_yes d _ D)), (bind_yes _ _ _ _ _ (lettered_article n r N L)). apply bind_no. now apply tok_no.
        -- apply bind_no, tok_no. rewrite lc_dash by exact D. now apply dash_chr in D.
    + apply part_nothing. rewrite E. rewrite <- !app_assoc in *. rewrite F. now apply NOTHING.
Qed.
(* ab) is no point *)
Lemma letter_cases i : sub_letter i -> letter_shape i \/ exists c d, i = [c; d] /\ is_small c /\ is_small d /\ i <> u8 "ny" /\ i <> u8 "sz".
Proof.
  intros (c & l & -> & C & L). destruct L as [|d D]; [left; left; exists c; auto|].
  destruct (list_eq_dec N.eq_dec [c; d] (u8 "ny")) as [E|N1]; [left; right; left; exact E|]. destruct (list_eq_dec N.eq_dec [c; d] (u8 "sz")) as [E|N2]; [left; right; right; exact E|].
  right. exists c, d. auto.
Qed.
Lemma two_letters c d s : is_small c -> is_small d -> [c; d] <> u8 "ny" -> [c; d] <> u8 "sz" -> g_alphabetic_point_id (c :: d :: s) = Some ([[c]], d :: s).
Proof.
  intros C D N1 N2. unfold g_alphabetic_point_id, p_rule. rewrite ws_solid_head by now apply small_solid. apply (map_yes (fun x => [x])).
  assert (T : forall a b, [c; d] <> [a; b] -> p_tok [a; b] (c :: d :: s) = None).
  { intros a b N. unfold p_tok. rewrite ws_solid_head by now apply small_solid. cbn [after_prefix]. destruct (N.eqb_spec a c); [|reflexivity]. destruct (N.eqb_spec b d); [congruence|reflexivity]. }
  rewrite or_no by (rewrite or_no; apply T; assumption). rewrite re_set. now rewrite small_b.
Qed.
Lemma small_facts c s : is_small c -> lc (c :: s) <> 41%N /\ ~ is_dash (lc (c :: s)).
Proof.
  intros C. rewrite lc_solid by now apply small_solid. split; [unfold is_small in C; lia|]. intros D. apply dash_chr in D as (_ & _ & D & _). now rewrite small_b in D.
Qed.
Lemma letter_not_sub p x e s : item_written PAlphabeticSubpoint p x -> part_parser PAlphabeticPoint ((x ++ u8 " alpont" ++ e) ++ s) = None.
Proof.
  intros W. assert (E : ws ((x ++ u8 " alpont" ++ e) ++ s) = (x ++ u8 " alpont" ++ e) ++ s) by (rewrite <- app_assoc; eapply solid_item; exact W).
  assert (NOTHING : forall c d r, is_small c -> is_small d -> [c; d] <> u8 "ny" -> [c; d] <> u8 "sz" -> range_parser PAlphabeticPoint (c :: d :: r) = None /\ single_parser PAlphabeticPoint (c :: d :: r) = None).
  { intros c d r C D N1 N2. pose proof (small_facts d r D) as [F1 F2]. cbn [range_parser single_parser]. rewrite !(bind_yes _ _ _ _ _ (two_letters c d r C D N1 N2)). split.
    - rewrite (bind_yes _ _ _ None (d :: r)) by (apply opt_no; now apply tok_no). apply bind_no. now apply dash_no.
    - apply bind_no. now apply tok_no. }
  destruct W as [i I|i d j I J D]; cbn [one_text range_text] in *.
  - destruct (letter_cases i I) as [I'|(a & b & -> & A & B & N1 & N2)].
    + apply (same_items PAlphabeticPoint PAlphabeticSubpoint (RId i) (i ++ u8 ")")); [apply (iw_one PAlphabeticPoint); exact I'|discriminate].
    + apply part_nothing. rewrite E. rewrite <- !app_assoc. cbn [app]. now apply NOTHING.
  - destruct (letter_cases i I) as [I'|(a & b & -> & A & B & N1 & N2)].
    + destruct (letter_cases j J) as [J'|(a & b & -> & A & B & N1 & N2)].
      * apply (same_items PAlphabeticPoint PAlphabeticSubpoint (RRange i j) (i ++ u8 ")" ++ [d] ++ j ++ u8 ")")); [apply (iw_range PAlphabeticPoint); assumption|discriminate].
      * set (r := d :: [a; b] ++ u8 ")" ++ (u8 " alpont" ++ e) ++ s).
        replace ((i ++ u8 ")" ++ [d] ++ [a; b] ++ u8 ")") ++ u8 " alpont" ++ e) with (i ++ u8 ")" ++ [d] ++ [a; b] ++ u8 ")" ++ u8 " alpont" ++ e) in * by now rewrite <- !app_assoc.
        replace ((i ++ u8 ")" ++ [d] ++ [a; b] ++ u8 ")" ++ u8 " alpont" ++ e) ++ s) with (i ++ 41%N :: r) in * by (unfold r; rewrite <- !app_assoc; reflexivity).
        destruct (letter_reads i (41%N :: r) I' (stop_paren _)) as (l & Il & _).
        assert (LR : lc r = d) by (apply lc_dash; exact D).
        assert (R : range_parser PAlphabeticPoint (i ++ 41%N :: r) = None).
        { cbn [range_parser]. rewrite (bind_yes _ _ _ _ _ Il), (bind_yes _ _ _ _ _ (opt_yes _ _ _ _ (tok_close r))). unfold r. rewrite (bind_yes _ _ _ _ _ (dash_yes d _ D)). cbn [app].
          rewrite (bind_yes _ _ _ _ _ (two_letters a b _ A B N1 N2)). apply bind_no, tok_no. apply small_facts. exact B. }
        assert (S : single_parser PAlphabeticPoint (i ++ 41%N :: r) = Some (l, r)).
        { cbn [single_parser]. now rewrite (bind_yes _ _ _ _ _ Il), (bind_yes _ _ _ _ _ (tok_close r)). }
        destruct (dash_chr d D) as (D1 & D2 & D3 & _). pose proof D as DD.
        eapply part_other with (r := r).
        -- unfold item_parser. rewrite or_no by (apply map_no, span_no; rewrite !E; exact R). apply map_yes, span_yes. rewrite !E. exact S.
        -- apply separator_no. rewrite LR. repeat (destruct DD as [<-|DD]; [cbn; intuition discriminate|]). destruct DD.
        -- assert (V : ws r = r) by (apply ws_solid_head; exact D1). destruct (nothing_letter PAlphabeticPoint r) as [X Y]; [now rewrite LR|cbn; tauto|]. apply item_no; rewrite V; assumption.
        -- apply unit_no. rewrite LR. intros ->. repeat (destruct DD as [DD|DD]; [discriminate DD|]). destruct DD.
    + apply part_nothing. rewrite E. rewrite <- !app_assoc. cbn [app]. now apply NOTHING.
Qed.

(** * Which parser does not read which part *)

Definition passes (t t' : part_type) : Prop :=
  match t, t' with
  | PArticle, PArticle | PParagraph, PParagraph => False
  | PAlphabeticPoint, (PNumericPoint | PAlphabeticSubpoint | PNumericSubpoint) => True
  | PNumericPoint, (PAlphabeticSubpoint | PNumericSubpoint) => True
  | PAlphabeticSubpoint, PNumericSubpoint => True
  | (PArticle | PParagraph), _ => True
  | _, _ => False
  end.
Lemma item_class t p x s : item_written t p x ->
  match t with
  | PParagraph => lc (x ++ s) = 40%N
  | PAlphabeticPoint | PAlphabeticSubpoint => c_az (lc (x ++ s)) = true
  | _ => c_09 (lc (x ++ s)) = true
  end.
Proof.
  assert (D : forall i s, digits i -> c_09 (lc (i ++ s)) = true). { intros i r I. destruct (digits_head i I) as (c & t' & -> & C). cbn [app]. rewrite lc_solid; [exact C|now apply digit_space]. }
  assert (L : forall c s, is_small c -> c_az (lc (c :: s)) = true) by (intros c r C; rewrite lc_solid by (now apply small_solid); now apply small_b).
  assert (P : forall i s, part_id t i -> match t with PParagraph => True | PAlphabeticPoint | PAlphabeticSubpoint => c_az (lc (i ++ s)) = true | _ => c_09 (lc (i ++ s)) = true end).
  { intros i r I. destruct t; cbn [part_id] in I; [|exact Logic.I|..].
    - destruct I; rewrite <- ?app_assoc; now apply D.
    - destruct I as [(c & -> & C)|[->| ->]]; [now apply L|reflexivity|reflexivity].
    - destruct I; rewrite <- ?app_assoc; now apply D.
    - destruct I as (c & l & -> & C & _). now apply L.
    - now apply D. }
  intros W. destruct W as [i I|i d j I J Dd].
  - destruct t; cbn [one_text]; rewrite <- ?app_assoc; cbn [app]; try reflexivity; apply (P i _ I).
  - destruct t; cbn [range_text]; rewrite <- ?app_assoc; cbn [app]; try reflexivity; apply (P i _ I).
Qed.
Lemma part_passed t t' p w s : passes t t' -> part_written t' p w -> part_parser t (w ++ s) = None.
Proof.
  intros H (x & e & W & E & ->). pose proof (item_class t' p x ((u8 " " ++ unit_text t' ++ e) ++ s) W) as C. rewrite app_assoc in C.
  assert (AZ : forall c, c_az c = true -> c_09 c = false /\ c <> 40%N) by (unfold c_az, c_09; intros; split; lia).
  assert (DG : forall c, c_09 c = true -> c_az c = false /\ c <> 40%N) by (unfold c_az, c_09; intros; split; lia).
  destruct t; cbn [passes] in H; destruct t'; try (destruct H; fail); try destruct H.
  all: try (apply part_nothing; apply nothing_numeric; [rewrite lc_ws; first [now apply AZ|rewrite C; reflexivity]|cbn; tauto]).
  all: try (apply part_nothing; apply nothing_paragraph; rewrite lc_ws; first [now apply AZ|now apply DG]).
  all: try (apply part_nothing; apply nothing_letter; [rewrite lc_ws; now apply DG|cbn; tauto]).
  - now apply (article_not_point p).
  - apply (same_items PArticle PNumericSubpoint p); [|discriminate]. destruct W as [i I|i d j I J D]; [apply (iw_one PArticle); now constructor|apply (iw_range PArticle); [now constructor|now constructor|exact D]].
  - now apply (letter_not_sub p).
  - apply (same_items PNumericPoint PNumericSubpoint p); [|discriminate]. destruct W as [i I|i d j I J D]; [apply (iw_one PNumericPoint); now constructor|apply (iw_range PNumericPoint); [now constructor|now constructor|exact D]].
Qed.
End Total.
