From Coq Require Import Lia.
From Coq Require Import ZifyBool ZifyNat ZifyN.
From Verif Require Import PyBase PyBaseFacts IdModel LineModel DateModel RefModel TreeModel TreeSpec StructModel GazModel HtmlModel HtmlSpec HtmlProofs HtmlProofs2 HtmlProofs3 TxtModel TxtSpec TxtProofs.
Local Open Scope Z_scope.

Definition text (o : output) : pystr := no_space (concat (map snd o)).
Lemma text_app a b : text (a ++ b) = text a ++ text b.
Proof. unfold text. now rewrite map_app, concat_app, no_space_app. Qed.
Lemma text_file s : text (to_file s) = no_space s.
Proof. unfold text. cbn. now rewrite app_nil_r. Qed.
Lemma file_app a b : all_file a -> all_file b -> all_file (a ++ b).
Proof. intros. now apply Forall_app. Qed.
Lemma file_one s : all_file (to_file s).
Proof. repeat constructor. Qed.

Lemma ok_inj {A} (a b : A) : Ok a = Ok b -> a = b.
Proof. now injection 1. Qed.
Ltac ok_in E := apply ok_inj in E; match type of E with _ = ?x => subst x end.

(** * Equations *)
Definition txt_all (w : wrapper) (width : Z) (indent : pystr) := fix go (cs : list child) : res output :=
  match cs with [] => Ok [] | c :: t => a <- txt_child w width indent c ;; b <- go t ;; Ok (a ++ b) end.
Definition txt_seq (w : wrapper) (width : Z) := fix go (indent : pystr) (cs : list child) : res output :=
  match cs with [] => Ok [] | c :: t => a <- txt_child w width indent c ;; b <- go (blanks indent) t ;; Ok (a ++ b) end.
Definition txt_paragraphs (w : wrapper) (width : Z) := fix go (indent : pystr) (ps : list sae) : res output :=
  match ps with [] => Ok [] | p :: t => a <- txt_sae w width indent p ;; b <- go (blanks indent) t ;; Ok (a ++ b) end.
Definition parenthesized (w : wrapper) (width : Z) (indent : pystr) (o : option pystr) : res output :=
  when_print o (fun t => wrapped_print w (u8 "(" ++ t ++ u8 ")") indent width).
Lemma txt_container w width indent i t n cs w' m : txt_sae w width indent (mk_sae KBlockAmendmentContainer i t n cs w' m) =
  (first <- parenthesized w width indent n ;; ns <- match cs with None => Err AssertionError | Some l => txt_all w width (indent ++ spaces 5) l end ;;
   last <- parenthesized w width indent w' ;; Ok (first ++ to_file (indent ++ u8 "„") ++ ns ++ to_file (indent ++ u8 "”") ++ last)).
Proof. destruct cs; reflexivity. Qed.
Definition txt_header (k : sae_kind) (i : option pystr) : pystr := match opt_true i with Some x => pad 5 (label k (Some x)) | None => spaces 5 end.
Lemma txt_element w width indent k i t n cs w' m : k <> KBlockAmendmentContainer ->
  txt_sae w width indent (mk_sae k i t n cs w' m) =
  (let indent := indent ++ txt_header k i in
   match opt_true t with
   | Some x => wrapped_print w x indent width
   | None =>
       first <- when_print n (fun t => wrapped_print w t indent width) ;;
       let indent := match opt_true n with Some _ => blanks indent | None => indent end in
       match cs with
       | None => Err AssertionError
       | Some l => rest <- txt_seq w width indent l ;; last <- when_print w' (fun t => wrapped_print w t (match l with [] => indent | _ => blanks indent end) width) ;; Ok (first ++ rest ++ last)
       end
   end).
Proof.
  intros K. unfold txt_header. destruct k; try congruence; cbn [txt_sae]; destruct (opt_true i); reflexivity.
Qed.
Lemma txt_article_eq w width indent i t ps : txt_article w width indent (mk_article i t ps) =
  (let indent := indent ++ pad 10 (i ++ u8 ". §") in
   first <- when_print t (fun t => wrapped_print w (spaces 5 ++ u8 "[" ++ t ++ u8 "]") indent width) ;;
   rest <- txt_paragraphs w width (match opt_true t with Some _ => blanks indent | None => indent end) ps ;;
   Ok (first ++ rest)).
Proof. reflexivity. Qed.
Lemma no_space_pad n s : no_space (pad n s) = no_space s.
Proof. unfold pad. rewrite no_space_app, spaces_none. apply app_nil_r. Qed.
Lemma header_label k i : no_space (txt_header k i) = no_space (txt_label k i).
Proof. unfold txt_header, txt_label. destruct i as [[|c i]|]; cbn [opt_true]; [apply spaces_none| |apply spaces_none]. apply no_space_pad. Qed.

(** * All strings, in order *)
Section Shows.
Context (w : wrapper) (width : Z) (S : splits w) (W : width <> 0).

Lemma lstrip_no_space s : no_space (str_lstrip s) = no_space s.
Proof. unfold str_lstrip, no_space. induction s as [|c s IH]; auto. cbn [drop_while List.filter]. destruct (isspace_chr c) eqn:E; cbn [negb]; auto. cbn [List.filter]. now rewrite E. Qed.
Lemma no_space_rev s : no_space (rev s) = rev (no_space s).
Proof. unfold no_space. induction s as [|c s IH]; auto. cbn [rev List.filter]. rewrite filter_app, IH. cbn [List.filter]. destruct (negb (isspace_chr c)); cbn [rev]; now rewrite ?app_nil_r. Qed.
Lemma strip_no_space s : no_space (str_strip s) = no_space s.
Proof. unfold str_strip. rewrite no_space_rev. pose proof (lstrip_no_space (rev (str_lstrip s))) as E. unfold str_lstrip at 1 in E. rewrite E, no_space_rev, rev_involutive. apply lstrip_no_space. Qed.

Lemma print_once s indent o : (nonblank s \/ no_space indent = []) -> wrapped_print w s indent width = Ok o -> all_file o /\ text o = no_space indent ++ no_space s.
Proof.
  intros N E. destruct (wrapped_shows w s indent width o S W E) as (F & T & H). split; [exact F|]. unfold text. rewrite T. f_equal. destruct o; auto. destruct N as [N|N]; [now apply H in N|now rewrite N].
Qed.
Lemma print_opt o f out : (forall x, x <> [] -> o = Some x -> forall out, f x = Ok out -> all_file out /\ text out = no_space x) -> when_print o f = Ok out -> all_file out /\ text out = no_space (opt_string o).
Proof.
  intros H E. unfold when_print in E. destruct o as [[|c x]|]; cbn [opt_true] in E; try (ok_in E; split; [constructor|reflexivity]). apply (H (c :: x)); auto. discriminate.
Qed.
Lemma parenthesized_shows indent o out : no_space indent = [] -> parenthesized w width indent o = Ok out -> all_file out /\ text out = no_space (concat (in_parentheses o)).
Proof.
  intros B E. unfold parenthesized, when_print in E. destruct o as [[|c x]|]; cbn [opt_true] in E; try (ok_in E; split; [constructor|reflexivity]). apply print_once in E as [F T]; [|auto]. split; auto. rewrite T, B. reflexivity.
Qed.
Lemma struct_shows indent e o : no_space indent = [] -> txt_struct w width indent e = Ok o -> all_file o /\ text o = no_space (concat (struct_strings e)).
Proof.
  intros B E. unfold txt_struct, struct_strings in *. apply bind_ok in E as (f & Ef & E). rewrite Ef. cbn [concat]. rewrite app_nil_r.
  destruct (se_kind e).
  5:{ apply print_once in E as [F T]; [|auto]. split; auto. rewrite T, B, strip_no_space. cbn [app]. rewrite !no_space_app. f_equal. destruct f as [|c f]; [reflexivity|]. rewrite no_space_app. apply app_nil_r. }
  all: apply bind_ok in E as (a & Ea & E); apply bind_ok in E as (b & Eb & E); ok_in E; apply print_once in Ea as [Fa Ta]; [|auto];
    (assert (H : all_file b /\ text b = no_space (se_title e)) by (destruct (se_title e) as [|c t]; [ok_in Eb; split; [constructor|reflexivity]|apply print_once in Eb as [Fb Tb]; [|right; apply blanks_none]; split; auto; rewrite Tb, blanks_none; reflexivity]));
    destruct H as [Fb Tb]; split; [now apply file_app|]; rewrite text_app, Ta, Tb, B, no_space_app; reflexivity.
Qed.
Lemma rows_show base indent ls : forall o, no_space indent = [] -> quoted_rows base indent ls = Ok o -> all_file o /\ text o = no_space (concat (map l_content ls)).
Proof.
  unfold quoted_rows. induction ls as [|l ls IH]; intros o B E; cbn [mapM] in E; [ok_in E; split; [constructor|reflexivity]|]. apply bind_ok in E as (x & Ex & E). apply bind_ok in E as (y & Ey & E). ok_in E.
  apply bind_ok in Ex as (i & Ei & Ex). ok_in Ex. destruct (IH y B Ey) as [F T]. split; [constructor; auto|]. change ((true, ?s) :: y) with (to_file s ++ y). rewrite text_app, text_file, T. cbn [map concat]. unfold rel_indent in Ei. apply bind_ok in Ei as (k & _ & Ei). ok_in Ei. rewrite !no_space_app, B, !spaces_none. reflexivity.
Qed.
Lemma quoted_shows indent ls o : txt_quoted indent ls = Ok o -> all_file o /\ text o = no_space indent ++ no_space (concat (quoted_strings ls)).
Proof.
  intros E. unfold txt_quoted in E. apply bind_ok in E as (base & _ & E). apply bind_ok in E as (rows & Er & E). ok_in E. destruct (rows_show base (blanks indent) ls rows (blanks_none _) Er) as [F T]. split; [apply file_app; [apply file_one|apply file_app; [exact F|apply file_one]]|].
  rewrite !text_app, !text_file, T, !no_space_app, blanks_none, <- app_assoc. f_equal. unfold quoted_strings. rewrite !concat_app, !no_space_app. reflexivity.
Qed.

Definition ok_first (c : child) (indent : pystr) : Prop := no_space indent = [] \/ match c with ChSae s => s_kind s <> KBlockAmendmentContainer | ChStruct _ => False | _ => True end.
Definition sae_shows (s : sae) : Prop := forall indent o, txt_sae w width indent s = Ok o -> speaks s -> (no_space indent = [] \/ s_kind s <> KBlockAmendmentContainer) ->
  all_file o /\ text o = no_space indent ++ no_space (concat (sae_txt s)).
Definition child_shows (c : child) : Prop := forall indent o, txt_child w width indent c = Ok o -> speaks_child c -> ok_first c indent ->
  all_file o /\ text o = no_space indent ++ no_space (concat (child_txt c)).
Definition article_shows (a : article) : Prop := forall indent o, txt_article w width indent a = Ok o -> speaks_article a ->
  all_file o /\ text o = no_space indent ++ no_space (concat (article_txt a)).
Lemma all_show l : Forall child_shows l -> fold_right (fun c P => speaks_child c /\ P) True l -> forall indent o, no_space indent = [] -> txt_all w width indent l = Ok o ->
  all_file o /\ text o = no_space (concat (flat_map child_txt l)).
Proof.
  induction 1 as [|c l H F IH]; intros Sp indent o B E; cbn in E; [ok_in E; split; [constructor|reflexivity]|]. cbn in Sp. destruct Sp as [S1 S2]. apply bind_ok in E as (a & Ea & E). apply bind_ok in E as (b & Eb & E). ok_in E.
  destruct (H indent a Ea S1) as [F1 T1]; [left; exact B|]. destruct (IH S2 indent b B Eb) as [F2 T2]. split; [now apply file_app|]. cbn [flat_map]. rewrite text_app, T1, T2, B, concat_app, no_space_app. reflexivity.
Qed.
Lemma seq_shows l : Forall child_shows l -> fold_right (fun c P => speaks_child c /\ P) True l -> forall indent o, (no_space indent = [] \/ starts_well l) -> txt_seq w width indent l = Ok o ->
  all_file o /\ text o = no_space indent ++ no_space (concat (flat_map child_txt l)).
Proof.
  induction 1 as [|c l H F IH]; intros Sp indent o B E; cbn in E; [ok_in E; split; [constructor|destruct B as [B|[]]; rewrite B; reflexivity]|]. cbn in Sp. destruct Sp as [S1 S2]. apply bind_ok in E as (a & Ea & E). apply bind_ok in E as (b & Eb & E). ok_in E.
  destruct (H indent a Ea S1) as [F1 T1].
  { destruct B as [B|B]; [now left|right]. cbn [starts_well] in B. destruct c; auto. }
  destruct (IH S2 (blanks indent) b (or_introl (blanks_none _)) Eb) as [F2 T2]. split; [now apply file_app|]. cbn [flat_map]. rewrite text_app, T1, T2, blanks_none, concat_app, no_space_app, <- app_assoc. reflexivity.
Qed.
Lemma paragraphs_show l : Forall sae_shows l -> fold_right (fun c P => speaks c /\ P) True l -> forall indent o,
  (no_space indent = [] \/ match l with [] => False | p :: _ => s_kind p <> KBlockAmendmentContainer end) -> txt_paragraphs w width indent l = Ok o ->
  all_file o /\ text o = no_space indent ++ no_space (concat (flat_map sae_txt l)).
Proof.
  induction 1 as [|c l H F IH]; intros Sp indent o B E; cbn in E; [ok_in E; split; [constructor|destruct B as [B|[]]; rewrite B; reflexivity]|]. cbn in Sp. destruct Sp as [S1 S2]. apply bind_ok in E as (a & Ea & E). apply bind_ok in E as (b & Eb & E). ok_in E.
  destruct (H indent a Ea S1 B) as [F1 T1]. destruct (IH S2 (blanks indent) b (or_introl (blanks_none _)) Eb) as [F2 T2]. split; [now apply file_app|]. cbn [flat_map]. rewrite text_app, T1, T2, blanks_none, concat_app, no_space_app, <- app_assoc. reflexivity.
Qed.
Theorem tree_shows : (forall s, sae_shows s) /\ (forall c, child_shows c) /\ (forall a, article_shows a).
Proof.
  apply tree_mut.
  - intros k i t n cs w' m H indent o E Sp B. cbn [s_kind] in B. destruct (sae_kind_eqb k KBlockAmendmentContainer) eqn:K.
    + assert (k = KBlockAmendmentContainer) as -> by (destruct k; try discriminate; reflexivity). assert (B0 : no_space indent = []) by (destruct B; [auto|contradiction]). rewrite txt_container in E. apply bind_ok in E as (a & Ea & E). apply bind_ok in E as (b & Eb & E). apply bind_ok in E as (c & Ec & E). ok_in E.
      destruct cs as [l|]; [|discriminate]. cbn [speaks] in Sp. apply parenthesized_shows in Ea as [Fa Ta]; auto. apply parenthesized_shows in Ec as [Fc Tc]; auto.
      destruct (all_show l (H l eq_refl) Sp (indent ++ spaces 5) b) as [Fb Tb]; [now rewrite no_space_app, B0, spaces_none|exact Eb|].
      split; [repeat (apply file_app; auto using file_one)|]. change (sae_txt _) with (in_parentheses n ++ [u8 "„"] ++ flat_map child_txt l ++ [u8 "”"] ++ in_parentheses w'). rewrite !text_app, !text_file, Ta, Tb, Tc, !concat_app, !no_space_app, B0. reflexivity.
    + assert (K' : k <> KBlockAmendmentContainer) by (intros ->; discriminate). rewrite txt_element in E by auto. cbn zeta in E. set (ind := indent ++ txt_header k i) in *.
      assert (Ei : no_space ind = no_space indent ++ no_space (txt_label k i)) by (unfold ind; now rewrite no_space_app, header_label).
      assert (Es : sae_txt (mk_sae k i t n cs w' m) = txt_label k i :: match opt_true t with Some x => [x] | None => [opt_string n] ++ match cs with None => [] | Some l => flat_map child_txt l end ++ [opt_string w'] end) by (destruct k; try congruence; reflexivity). rewrite Es. clear Es.
      assert (Sp' : match opt_true t with Some t => nonblank t | None => match opt_true n with Some t => nonblank t | None => match cs with None => False | Some cs => starts_well cs end end /\ match cs with None => True | Some cs => fold_right (fun c P => speaks_child c /\ P) True cs end end) by (destruct k; try congruence; exact Sp). clear Sp.
      destruct (opt_true t) as [x|].
      * apply print_once in E as [F T]; auto. split; auto. rewrite T, Ei. cbn [concat]. now rewrite app_nil_r, no_space_app, app_assoc.
      * destruct Sp' as [Sn Sc]. apply bind_ok in E as (a & Ea & E). destruct cs as [l|]; [|discriminate]. apply bind_ok in E as (b & Eb & E). apply bind_ok in E as (c & Ec & E). ok_in E.
        set (ind2 := match opt_true n with Some _ => blanks ind | None => ind end) in *.
        assert (A : all_file a /\ text a ++ no_space ind2 = no_space ind ++ no_space (opt_string n)).
        { unfold when_print in Ea. unfold ind2. destruct n as [[|z n]|]; cbn [opt_true] in *; try (ok_in Ea; split; [constructor|now rewrite app_nil_r]). apply print_once in Ea as [F T]; auto. split; auto. rewrite T, blanks_none. apply app_nil_r. }
        destruct (seq_shows l (H l eq_refl) Sc ind2 b) as [Fb Tb]; [|exact Eb|].
        { unfold ind2. destruct (opt_true n); [left; apply blanks_none|now right]. }
        assert (C : all_file c /\ text c = no_space (opt_string w')).
        { refine (print_opt w' _ c _ Ec). intros x _ _ out Ex. apply print_once in Ex as [F T].
          - split; auto. rewrite T. destruct l; [|now rewrite blanks_none]. unfold ind2 in *. destruct (opt_true n); [now rewrite blanks_none|destruct Sn].
          - right. destruct l; [|apply blanks_none]. unfold ind2 in *. destruct (opt_true n); [apply blanks_none|destruct Sn]. }
        destruct A as [Fa Ta], C as [Fc Tc]. split; [repeat (apply file_app; auto)|]. rewrite !text_app, Tb, Tc. rewrite <- !app_assoc, (app_assoc (text a)), Ta, Ei. cbn [concat app]. rewrite concat_app. cbn [concat]. rewrite !no_space_app, app_nil_r, <- !app_assoc. reflexivity.
  - intros s H indent o E Sp B. apply (H indent o E Sp). exact B.
  - intros a H indent o E Sp B. apply (H indent o E Sp).
  - intros ls indent o E Sp B. exact (quoted_shows indent ls o E).
  - intros e indent o E Sp [B|[]]. rewrite B. exact (struct_shows indent e o B E).
  - intros i t ps H indent o E Sp. rewrite txt_article_eq in E. cbn zeta in E. set (ind := indent ++ pad 10 (i ++ u8 ". §")) in *.
    assert (Ei : no_space ind = no_space indent ++ no_space (i ++ u8 ". §")) by (unfold ind; now rewrite no_space_app, no_space_pad).
    apply bind_ok in E as (a & Ea & E). apply bind_ok in E as (b & Eb & E). ok_in E. destruct Sp as [Sn Sc].
    set (ind2 := match opt_true t with Some _ => blanks ind | None => ind end) in *.
    set (ts := match t with None | Some [] => [] | Some t => [u8 "["; t; u8 "]"] end).
    assert (A : all_file a /\ text a ++ no_space ind2 = no_space ind ++ no_space (concat ts)).
    { unfold when_print in Ea. unfold ind2, ts. destruct t as [[|z t]|]; cbn [opt_true] in *; try (ok_in Ea; split; [constructor|now rewrite app_nil_r]). apply print_once in Ea as [F T]; [|left; discriminate]. split; auto. rewrite T, blanks_none. now rewrite app_nil_r, no_space_app, spaces_none. }
    destruct (paragraphs_show ps H Sc ind2 b) as [Fb Tb]; [|exact Eb|].
    { unfold ind2. destruct t as [[|z t]|]; cbn [opt_true]; [|left; apply blanks_none|]; right; (destruct Sn as [Sn|Sn]; [now destruct Sn|exact Sn]). }
    destruct A as [Fa Ta]. split; [now apply file_app|]. change (article_txt _) with ([i; u8 ". §"] ++ ts ++ flat_map sae_txt ps). rewrite text_app, Tb, app_assoc, Ta, Ei, !concat_app, !no_space_app. cbn [concat]. rewrite !no_space_app, <- !app_assoc. reflexivity.
Qed.
Lemma act_children_show l : forall indent o, no_space indent = [] -> (forall x, In (AArticle x) l -> speaks_article x) ->
  (fix go (indent : pystr) (cs : list act_child) : res output :=
     match cs with
     | [] => Ok []
     | c :: t => x <- match c with AStruct e => txt_struct w width indent e | AArticle x => txt_article w width indent x end ;; y <- go (blanks indent) t ;; Ok (x ++ to_file [] ++ y)
     end) indent l = Ok o -> all_file o /\ text o = no_space (concat (flat_map act_child_txt l)).
Proof.
  induction l as [|c l IH]; intros indent o B Sp E; [ok_in E; split; [constructor|reflexivity]|]. apply bind_ok in E as (a & Ea & E). apply bind_ok in E as (b & Eb & E). ok_in E.
  assert (A : all_file a /\ text a = no_space (concat (act_child_txt c))).
  { destruct c as [e|x]; [now apply struct_shows in Ea|]. destruct tree_shows as (_ & _ & H). destruct (H x indent a Ea) as [F T]; [apply Sp; now left|]. rewrite B in T. auto. }
  destruct A as [Fa Ta]. destruct (IH (blanks indent) b (blanks_none _)) as [Fb Tb]; [intros x I; apply Sp; now right|exact Eb|]. split; [repeat (apply file_app; auto using file_one)|]. rewrite !text_app, Ta, Tb. cbn [flat_map]. rewrite concat_app, no_space_app. reflexivity.
Qed.
Lemma no_space_heading i s : no_space (heading i s) = no_space (concat [u8 "===="; i; u8 "-"; s; u8 "====="]).
Proof. unfold heading. cbn [concat]. rewrite !no_space_app. reflexivity. Qed.
Theorem act_shows indent a o : no_space indent = [] -> speaks_act a -> txt_act w width indent a = Ok o -> all_file o /\ text o = no_space (concat (act_txt a)).
Proof.
  intros B Sp E. unfold txt_act in E. apply bind_ok in E as (p & Ep & E). apply bind_ok in E as (r & Er & E). ok_in E. apply print_once in Ep as [Fp Tp]; [|now right]. apply act_children_show in Er as [Fr Tr]; auto.
  split; [repeat (apply file_app; auto using file_one)|]. rewrite !text_app, text_file, Tp, Tr, no_space_heading. unfold act_txt. change ([u8 "===="; act_identifier a; u8 "-"; act_subject a; u8 "====="; act_preamble a]) with ([u8 "===="; act_identifier a; u8 "-"; act_subject a; u8 "====="] ++ [act_preamble a]).
  rewrite !concat_app, !no_space_app. cbn [concat]. rewrite ?no_space_app, <- ?app_assoc, ?app_nil_r. reflexivity.
Qed.
End Shows.
