(* C44, C59: the lines of a page and the characters they are made of. *)
From Coq Require Import Floats.SpecFloat Sorting.Sorted Permutation Lia.
From Verif Require Import PyBase PyBaseFacts LineModel PdfModel PdfSpec PdfProofs PdfProofs2 PdfProofs3 PdfProofs4.
Local Open Scope Z_scope.

(** C44 *)
Theorem C44_page : forall bs, bs <> [] -> Forall proper_box bs -> consistent bs ->
  exists rs m, page_rows bs rs /\ is_rightmost bs m /\ extract_single_page bs = Ok (rows_lines m rs).
Proof. exact page_ok. Qed.
Print Assumptions C44_page.
Theorem C44_unique : forall bs rs rs', Forall proper_box bs -> page_rows bs rs -> page_rows bs rs' -> rs = rs'.
Proof. exact rows_unique. Qed.
Print Assumptions C44_unique.
Theorem C44_kept : forall bs rs, page_rows bs rs -> NoDup bs ->
  (forall a b y, In a bs -> In b bs -> tb_x a = tb_x b -> row_of (map fst rs) y a -> row_of (map fst rs) y b -> a = b) ->
  Permutation (flat_map snd rs) bs.
Proof. exact rows_kept. Qed.
Print Assumptions C44_kept.
Theorem C44_text : forall m rs, filter (fun c => negb (N.eqb c 32)) (flat_map l_content (rows_lines m rs)) = filter (fun c => negb (N.eqb c 32)) (flat_map tb_content (flat_map snd rs)).
Proof. exact page_text. Qed.
Print Assumptions C44_text.
Theorem C44_line : forall m b bs, proper (tb_x b) -> l_content (row_line m (b :: bs)) = row_text (b :: bs) /\ l_indent (row_line m (b :: bs)) = tb_x b.
Proof. intros m b bs P. exact (conj (line_text m (b :: bs)) (line_indent m b bs P)). Qed.
Print Assumptions C44_line.
Theorem C44_conflict : forall bs, Forall proper_box bs -> ~ consistent bs -> extract_single_page bs = Err ValueError.
Proof. exact conflict. Qed.
Print Assumptions C44_conflict.

(* a box of width 5; a space of the font is 2 wide; y in eighths *)
Definition c44_box (x y : Z) (s : pystr) : textbox := mk_tb (f_of_Z x) (f_dyadic y (-3)) (f_of_Z 5) (f_of_Z 2) s false.
(* two rows of text and a third one farther below; the second is not quite even; one box is drawn twice *)
Definition c44_page := [c44_box 20 5600 (u8 "b"); c44_box 10 5600 (u8 "A"); c44_box 15 5601 (u8 "z"); c44_box 10 5500 (u8 "„b"); c44_box 15 5501 (u8 "„"); c44_box 40 5500 (u8 "c"); c44_box 10 5500 (u8 "„b"); c44_box 30 5000 (u8 "vég")].
Lemma c44_proper : Forall proper_box c44_page.
Proof. unfold proper_box, proper. repeat constructor; vm_compute; discriminate. Qed.
Lemma c44_consistent : consistent c44_page.
Proof.
  intros a b Ia Ib. unfold c44_page in *. cbn [In] in Ia, Ib.
  repeat destruct Ia as [<-|Ia]; try contradiction; repeat destruct Ib as [<-|Ib]; try contradiction; try (intros _ _; reflexivity); intros E E'; exfalso; try (vm_compute in E; discriminate E); vm_compute in E'; discriminate E'.
Qed.
Example C44_ex :
  match extract_single_page c44_page with Ok ls => Some (map l_content ls) | Err _ => None end =
  Some [u8 "Azb"; u8 "„b „ c"; []; u8 "vég"].
Proof. vm_compute. reflexivity. Qed.
Definition c44_apart := [c44_box 20 5600 (u8 "b"); c44_box 10 5600 (u8 "A"); c44_box 10 5500 (u8 "c")].
Example C44_rows_ex : page_rows c44_apart [(f_dyadic 5600 (-3), [c44_box 10 5600 (u8 "A"); c44_box 20 5600 (u8 "b")]); (f_dyadic 5500 (-3), [c44_box 10 5500 (u8 "c")])].
Proof.
  assert (P : Forall proper_box c44_apart) by (unfold proper_box, proper; repeat constructor; vm_compute; discriminate).
  assert (C : consistent c44_apart).
  { intros a b Ia Ib. unfold c44_apart in *. cbn [In] in Ia, Ib.
    repeat destruct Ia as [<-|Ia]; try contradiction; repeat destruct Ib as [<-|Ib]; try contradiction; try (intros _ _; reflexivity); intros E E'; exfalso; try (vm_compute in E; discriminate E); vm_compute in E'; discriminate E'. }
  assert (Hi : ~ f_le (f_dyadic 5600 (-3)) (f_dyadic 5500 (-3))) by (intros [L|L]; vm_compute in L; discriminate).
  assert (Lo : f_le (f_dyadic 5500 (-3)) (f_dyadic 5600 (-3))) by (left; vm_compute; reflexivity).
  set (y1 := f_dyadic 5600 (-3)) in *. set (y2 := f_dyadic 5500 (-3)) in *. unfold page_rows. cbn [map fst].
  assert (R1 : forall x s, row_of [y1; y2] y1 (c44_box x 5600 s)). { intros x s. split; [now left|]. split; [apply le_refl|]. intros z [<-|[<-|[]]] _; auto. apply le_refl. }
  assert (R2 : forall x s, row_of [y1; y2] y2 (c44_box x 5500 s)). { intros x s. split; [right; now left|]. split; [apply le_refl|]. intros z [<-|[<-|[]]] L; [destruct (Hi L)|]. apply le_refl. }
  assert (N12 : y1 <> y2) by (intros E; apply Hi; rewrite E; apply le_refl).
  split; [|split; [|split]].
  - split; [vm_compute; reflexivity|]. split; [intros H; vm_compute in H; discriminate|exact I].
  - intros y [<-|[<-|[]]]; [exists (c44_box 20 5600 (u8 "b"))|exists (c44_box 10 5500 (u8 "c"))]; split; auto; cbn; auto.
  - intros b [<-|[<-|[<-|[]]]]; [exists y1|exists y1|exists y2]; split; auto.
  - constructor; [|constructor; [|constructor]]; cbn [fst snd]; split.
    + repeat constructor.
    + intros b. split.
      * intros [<-|[<-|[]]]; (split; [cbn; auto|]); (split; [apply R1|]); (split; [|intros c [<-|[<-|[<-|[]]]] Rc Ex; try apply le_refl; cbn [tb_y c44_box]; auto]).
        -- exists [c44_box 20 5600 (u8 "b")], [c44_box 10 5500 (u8 "c")]. split; auto. constructor; auto. intros [E _]. vm_compute in E. discriminate.
        -- exists [], (tl c44_apart). split; auto.
      * intros ([<-|[<-|[<-|[]]]] & R & _); cbn; auto. exfalso. apply N12. exact (row_of_unique _ _ _ _ R (R2 _ _)).
    + repeat constructor.
    + intros b. split.
      * intros [<-|[]]. split; [cbn; auto|]. split; [apply R2|]. split.
        -- exists (firstn 2 c44_apart), []. split; auto. constructor; [|constructor; auto]; intros [_ E]; vm_compute in E; discriminate.
        -- intros c [<-|[<-|[<-|[]]]] Rc Ex; try apply le_refl; exfalso; apply N12; symmetry; exact (row_of_unique _ _ _ _ Rc (R1 _ _)).
      * intros ([<-|[<-|[<-|[]]]] & R & _); cbn; auto; exfalso; apply N12; symmetry; exact (row_of_unique _ _ _ _ R (R1 _ _)).
Qed.

(* Of two boxes one above the other by less than 0.2 only the upper one is kept. *)
Theorem C44_lost_refuted : ~ forall bs ls b, Forall proper_box bs -> consistent bs -> extract_single_page bs = Ok ls -> In b bs ->
  exists l, In l ls /\ contains_sub (tb_content b) (l_content l) = true.
Proof.
  intros H. set (bs := [c44_box 10 5600 (u8 "x"); c44_box 10 5601 (u8 "y")]).
  destruct (extract_single_page bs) as [ls|] eqn:E; vm_compute in E; [|discriminate]. injection E as <-.
  destruct (H bs _ (c44_box 10 5600 (u8 "x")) ltac:(unfold proper_box, proper; repeat constructor; vm_compute; discriminate)
    ltac:(intros a b [<-|[<-|[]]] [<-|[<-|[]]] _ Ey; auto; vm_compute in Ey; discriminate) eq_refl (or_introl eq_refl)) as (l & [<-|[]] & C).
  vm_compute in C. discriminate.
Qed.
Print Assumptions C44_lost_refuted.
(* A page without text is an error, and with it the file. *)
Theorem C44_empty_page_refuted : ~ forall pages, Forall (fun bs => Forall proper_box bs /\ consistent bs) pages -> exists ls, extract_lines pages = Ok ls.
Proof.
  intros H. destruct (H [c44_page; []]) as (ls & E); [|vm_compute in E; discriminate]. constructor; [split; [exact c44_proper|exact c44_consistent]|].
  constructor; [|constructor]. split; [constructor|]. intros a b [].
Qed.
Print Assumptions C44_empty_page_refuted.
(* The margin at the right is measured from twice the width of the last box to the left. *)
Theorem C44_margin_refuted : ~ forall bs l, Forall proper_box bs -> extract_single_page bs = Ok [l] -> f_eqb (l_margin_right l) f_zero = true.
Proof.
  intros H. specialize (H [c44_box 10 5600 (u8 "x")]). destruct (extract_single_page _) as [ls|] eqn:E; vm_compute in E; [|discriminate]. injection E as <-.
  specialize (H _ ltac:(unfold proper_box, proper; repeat constructor; vm_compute; discriminate) eq_refl). vm_compute in H. discriminate.
Qed.
Print Assumptions C44_margin_refuted.

(** C59 *)
Theorem C59_pages : forall front css, Forall good_char front -> Forall (Forall good_char) css ->
  extract_textboxes (map RenderChar front ++ flat_map page_events css) = Ok (map (flat_map char_boxes) css).
Proof. exact pages_ok. Qed.
Print Assumptions C59_pages.
Theorem C59_all_events : forall es, exists front css, es = map RenderChar front ++ flat_map page_events css.
Proof. exact all_events. Qed.
Print Assumptions C59_all_events.
Theorem C59_bold : forall c b, In b (char_boxes c) ->
  (tb_bold b = true <-> exists u w, fn_name (ch_font c) = u ++ u8 "bold" ++ w \/ fn_name (ch_font c) = u ++ u8 "Bold" ++ w).
Proof. exact bold_ok. Qed.
Print Assumptions C59_bold.

(* a font without a space of its own and with letters in the wrong case and encoding *)
Definition c59_font : font := mk_font (u8 "Times-Bold") (fun cid => find (fun s => match s with c :: _ => (Z.of_N c =? cid) || (cid =? 97) | [] => false end) [u8 "A"; u8 "õ"; u8 "ffi"; u8 " "]) (fun _ => f_of_Z 0).
Definition c59_char (cid : Z) : char := mk_char (f_of_Z 1) (f_of_Z 10) (f_dyadic 1 (-4)) c59_font (f_of_Z 12) (f_of_Z 1) cid.
Example C59_good_ex : Forall good_char (map c59_char [65; 97; 245; 102; 32; 300]).
Proof. repeat constructor; vm_compute; discriminate. Qed.
Example C59_ex : match extract_textboxes (page_events (map c59_char [65; 97; 245]) ++ page_events (map c59_char [102; 32; 300])) with
    Ok pages => Some (map (map (fun b => (tb_content b, tb_bold b, match tb_y b with S754_finite _ m e => Some (m, e) | _ => None end))) pages) | Err _ => None end =
  let y := Some (8935141660703064%positive, -57) in
  Some [[(u8 "A", true, y); (u8 "a", true, y); (u8 "ő", true, y)]; [(u8 "ffi", true, y); (u8 "[X]", true, y)]].
Proof. vm_compute. reflexivity. Qed.
(* A soft hyphen or private character at the beginning of a character's text drops all of it. *)
Theorem C59_dropped_refuted : ~ forall c a, good_char c -> In a (glyph (ch_font c) (ch_cid c)) -> isspace_chr a = false -> in_ranges co_cf_ranges a = false -> char_boxes c <> [].
Proof.
  intros H. refine (H (mk_char (f_of_Z 1) f_zero f_zero (mk_font [] (fun _ => Some [173%N; 97%N]) (fun _ => f_zero)) f_zero f_zero 300) 97%N _ _ eq_refl eq_refl _); vm_compute.
  - split; discriminate.
  - auto.
  - reflexivity.
Qed.
Print Assumptions C59_dropped_refuted.
