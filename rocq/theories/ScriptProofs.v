(* Proofs about generate_act_to_mk_issue.py. *)
From Coq Require Import Lia Sorted.
From Coq Require Import ZifyBool ZifyNat ZifyN.
From Verif Require Import PyBase PyBaseFacts LineModel ScriptModel ScriptSpec.
Local Open Scope Z_scope.

(** * Texts *)
Definition tidy_text (s : pystr) : pystr := map spaced (str_strip s).
Lemma replace_nbsp s : replace_str [160%N] (u8 " ") s = map spaced s.
Proof.
  unfold replace_str. assert (H : forall n, (List.length s <= n)%nat -> replace_aux n [160%N] (u8 " ") s = map spaced s); [|apply H; lia].
  induction s as [|c s IH]; intros [|n] Hn; cbn [length] in Hn; try reflexivity; [lia|]. cbn [replace_aux startswith]. unfold spaced at 1. cbn [map].
  rewrite N.eqb_sym. destruct (c =? 160)%N; cbn [andb length skipn]; [|f_equal; apply IH; lia]. cbn [app]. f_equal. apply IH. lia.
Qed.
Lemma drop_while_split {A} (f : A -> bool) s : exists b, s = b ++ drop_while f s /\ Forall (fun c => f c = true) b /\
  (forall c r, drop_while f s = c :: r -> f c = false).
Proof.
  induction s as [|c s IH]; [exists []; split; [reflexivity|split; [constructor|discriminate]]|]. cbn [drop_while]. destruct (f c) eqn:E.
  - destruct IH as (b & H & F & K). exists (c :: b). split; [cbn [app]; f_equal; exact H|]. split; [constructor; auto|exact K].
  - exists []. split; [reflexivity|]. split; [constructor|]. intros d r H. injection H as <- _. exact E.
Qed.
Lemma strip_shown s : shown_text s (tidy_text s).
Proof.
  destruct (drop_while_split isspace_chr s) as (b & H & F & K). unfold tidy_text, str_strip, str_lstrip.
  set (l := drop_while isspace_chr s) in *. destruct (drop_while_split isspace_chr (rev l)) as (a & H2 & F2 & K2).
  set (m := drop_while isspace_chr (rev l)) in *.
  assert (El : l = rev m ++ rev a) by (rewrite <- rev_app_distr, <- H2, rev_involutive; reflexivity).
  apply (st_intro s b (rev m) (rev a)); [rewrite <- El; exact H|exact F|now apply Forall_rev| |].
  - intros c r E. apply (K c (r ++ rev a)). rewrite El, E. reflexivity.
  - intros c r E. apply (K2 c (rev r)). rewrite <- (rev_involutive m), E, rev_app_distr. reflexivity.
Qed.
Lemma shown_unique s t : shown_text s t -> t = tidy_text s.
Proof.
  intros [b u a E Fb Fa H1 H2]. unfold tidy_text. f_equal. subst s.
  assert (D : forall x y, Forall (fun c => isspace_chr c = true) x -> (forall c r, y = c :: r -> isspace_chr c = false) -> drop_while isspace_chr (x ++ y) = y).
  { intros x y Fx Hy. induction Fx as [|c x Hc _ IH]; cbn [app]; [|cbn [drop_while]; rewrite Hc; exact IH].
    destruct y as [|c y]; [reflexivity|]. cbn [drop_while]. rewrite (Hy c y eq_refl). reflexivity. }
  unfold str_strip, str_lstrip. destruct u as [|c u].
  - cbn [app]. rewrite <- (app_nil_r (b ++ a)), D; [reflexivity| |discriminate]. apply Forall_app. now split.
  - rewrite (D b) by (try exact Fb; intros d r E; injection E as <- _; exact (H1 c u eq_refl)).
    rewrite rev_app_distr, D; [symmetry; apply rev_involutive|now apply Forall_rev|].
    intros d r E. apply (H2 d (rev r)). rewrite <- (rev_involutive (c :: u)), E. reflexivity.
Qed.

(** * The parser *)
Definition kept (s : pystr) (path : list pystr) : list (list pystr * pystr) := match tidy_text s with [] => [] | t => [(path, t)] end.
Lemma handle_data s p : handle (HData s) p = mk_state (mp_stack p) (mp_tags p ++ kept s (mp_stack p)).
Proof. cbn [handle]. rewrite replace_nbsp. unfold kept. fold (tidy_text s). destruct (tidy_text s); [rewrite app_nil_r; destruct p|]; reflexivity. Qed.
Lemma feed_app a b p : feed (a ++ b) p = feed b (feed a p).
Proof. apply fold_left_app. Qed.
Lemma texts_ok es : forall p l, texts_of es l -> map snd (mp_tags (feed es p)) = map snd (mp_tags p) ++ l.
Proof.
  intros p l H. revert p. induction H as [|e es l He _ IH|s es l Hs _ IH|s t es l Hs Ht _ IH]; intros p.
  - symmetry. apply app_nil_r.
  - change (feed (e :: es) p) with (feed es (handle e p)). rewrite IH. destruct e; [reflexivity|reflexivity|]. exfalso. exact (He _ eq_refl).
  - change (feed (HData s :: es) p) with (feed es (handle (HData s) p)). rewrite IH, handle_data. unfold kept. rewrite <- (shown_unique _ _ Hs). cbn [mp_tags]. rewrite app_nil_r. reflexivity.
  - change (feed (HData s :: es) p) with (feed es (handle (HData s) p)). rewrite IH, handle_data. unfold kept. rewrite <- (shown_unique _ _ Hs). cbn [mp_tags].
    destruct t as [|c t]; [exfalso; apply Ht; reflexivity|]. rewrite map_app, <- app_assoc. reflexivity.
Qed.
Lemma texts_exist es : exists l, texts_of es l.
Proof.
  induction es as [|e es [l IH]]; [exists []; constructor|]. destruct e as [t|t|s]; [exists l; constructor; [discriminate|exact IH]|exists l; constructor; [discriminate|exact IH]|].
  pose proof (strip_shown s) as H. destruct (tidy_text s) as [|c t]; [exists l; now constructor|]. exists ((c :: t) :: l). constructor; [exact H|discriminate|exact IH].
Qed.
Lemma pop_last n tag path : (n <> 0)%nat -> ~ In tag path -> pop_while n tag (path ++ [tag]) = path.
Proof.
  intros Hn H. destruct n as [|n]; [congruence|]. cbn [pop_while]. replace (mem_str tag (path ++ [tag])) with true by (symmetry; apply mem_str_In, in_or_app; right; now left).
  rewrite removelast_last. destruct n as [|n]; [reflexivity|]. cbn [pop_while]. destruct (mem_str tag path) eqn:E; [exfalso; apply H, mem_str_In, E|reflexivity].
Qed.
Fixpoint node_size (n : node) : nat := match n with Text _ => 1%nat | Elem _ ns => S (list_sum (map node_size ns)) end.
Lemma paths_ok size : forall path ns l tags, (list_sum (map node_size ns) < size)%nat -> no_nesting path ns -> texts_in path ns l ->
  feed (flat_map node_events ns) (mk_state path tags) = mk_state path (tags ++ l).
Proof.
  induction size as [|size IH]; [lia|]. intros path ns l tags Hs Hn H. revert tags Hs Hn.
  induction H as [path|path s ns l Hs _ IHn|path s t ns l Hs Ht _ IHn|path tag inside ns l l' Hi _ _ IHn]; intros tags Hz Hn; cbn [flat_map].
  - now rewrite app_nil_r.
  - inversion Hn; subst. change (feed (node_events (Text s) ++ flat_map node_events ns) (mk_state path tags)) with (feed (flat_map node_events ns) (handle (HData s) (mk_state path tags))).
    rewrite handle_data. unfold kept. rewrite <- (shown_unique _ _ Hs). cbn [mp_stack mp_tags]. rewrite app_nil_r. apply IHn; [unfold list_sum in *; cbn [map fold_right node_size] in Hz; lia|assumption].
  - inversion Hn; subst. change (feed (node_events (Text s) ++ flat_map node_events ns) (mk_state path tags)) with (feed (flat_map node_events ns) (handle (HData s) (mk_state path tags))).
    rewrite handle_data. unfold kept. rewrite <- (shown_unique _ _ Hs). cbn [mp_stack mp_tags]. destruct t as [|c t]; [exfalso; apply Ht; reflexivity|].
    rewrite IHn; [rewrite <- app_assoc; reflexivity|unfold list_sum in *; cbn [map fold_right node_size] in Hz; lia|assumption].
  - inversion Hn as [| |tag' inside' ns' Ht Hin Hns]; subst. cbn [node_events]. rewrite feed_app. cbn [map list_sum fold_right node_size] in Hz.
    change (fold_right Nat.add 0%nat (map node_size ns)) with (list_sum (map node_size ns)) in Hz.
    change (feed (HStart tag :: ?x) ?p) with (feed x (handle (HStart tag) p)). rewrite feed_app. cbn [handle mp_stack mp_tags].
    rewrite (IH (path ++ [tag]) inside l tags); [|lia|exact Hin|exact Hi].
    change (feed [HEnd tag] ?p) with (handle (HEnd tag) p). cbn [handle mp_stack mp_tags]. rewrite pop_last; [|rewrite app_length; cbn [length]; lia|exact Ht].
    rewrite IHn; [rewrite <- app_assoc; reflexivity|lia|exact Hns].
Qed.

(** * Acts *)
Lemma same_line_ok pat s : pat <> [] -> (same_line_find pat s = true <-> exists x rest, s = x ++ pat ++ rest /\ ~ In 10%N x).
Proof.
  intros Hp. split.
  - induction s as [|c s IH]; cbn [same_line_find]; intros H; apply orb_true_iff in H as [H|H]; try discriminate.
    + apply startswith_spec in H as (t & E). exists [], t. split; [exact E|intros []].
    + apply startswith_spec in H as (t & E). exists [], t. split; [exact E|intros []].
    + apply andb_true_iff in H as [Hc H]. destruct (IH H) as (x & r & -> & Hx). exists (c :: x), r. split; [reflexivity|]. intros [->|I]; [discriminate|auto].
  - intros (x & rest & -> & Hx). induction x as [|c x IH]; cbn [app].
    + destruct pat as [|c pat]; [congruence|]. change (same_line_find (c :: pat) ((c :: pat) ++ rest)) with (startswith (c :: pat) ((c :: pat) ++ rest) || match (c :: pat) ++ rest with [] => false | d :: t => negb (N.eqb d 10) && same_line_find (c :: pat) t end).
      rewrite startswith_app. reflexivity.
    + cbn [same_line_find]. apply orb_true_iff. right. rewrite IH by (intros I; apply Hx; now right). rewrite andb_true_r. apply negb_true_iff, N.eqb_neq. intros ->. apply Hx. now left.
Qed.
Lemma act_id_ok s : act_id_match s = true <-> starts_like_act s.
Proof.
  unfold act_id_match, starts_like_act. split.
  - destruct s as [|a [|b [|c [|d t]]]]; try discriminate. intros H. apply andb_true_iff in H as [H H0]. apply andb_true_iff in H as [H H1].
    apply andb_true_iff in H as [H Hd]. apply andb_true_iff in H as [H Hc].
    apply startswith_spec in H as (t0 & E0). apply startswith_spec in H1 as (t1 & E1). subst t.
    change (skipn 6 (u8 ". évi " ++ t1)) with t1 in H0. apply same_line_ok in H0 as (x & rest & -> & Hx); [|discriminate].
    exists c, d, x, rest. split; [|]. 
    + cbn in E0. injection E0 as -> -> _. reflexivity.
    + intros [->|[->|I]]; [discriminate|discriminate|auto].
  - intros (a & b & x & rest & -> & Hn).
    change (u8 "20" ++ [a; b] ++ u8 ". évi " ++ x ++ u8 " törvény" ++ rest) with (50%N :: 48%N :: a :: b :: u8 ". évi " ++ x ++ u8 " törvény" ++ rest). cbv iota beta.
    change (skipn 6 (u8 ". évi " ++ x ++ u8 " törvény" ++ rest)) with (x ++ u8 " törvény" ++ rest).
    change (startswith (u8 "20") [50%N; 48%N]) with true.
    rewrite (startswith_app (u8 ". évi ")). rewrite (proj2 (same_line_ok (u8 " törvény") _ ltac:(discriminate))); [|exists x, rest; split; [reflexivity|intros I; apply Hn; right; now right]].
    replace (a =? 10)%N with false by (symmetry; apply N.eqb_neq; intros ->; apply Hn; now left).
    replace (b =? 10)%N with false by (symmetry; apply N.eqb_neq; intros ->; apply Hn; right; now left). reflexivity.
Qed.
Lemma act_id_not s : act_id_match s = false <-> ~ starts_like_act s.
Proof. rewrite <- act_id_ok. destruct (act_id_match s); intuition congruence. Qed.
Lemma rows_ok y i texts l : listed texts l -> table_rows y i None texts = map (fun p => table_row y i (fst p) (snd p)) l /\
  forall id, match texts with
             | [] => table_rows y i (Some id) texts = []
             | t :: _ => starts_like_act t -> table_rows y i (Some id) texts = table_rows y i None texts
             end.
Proof.
  intros H. induction H as [|x|x z texts l Hx Hz _ [IH1 IH2]|x z texts l Hxz _ [IH1 IH2]].
  - split; reflexivity.
  - split; [cbn [table_rows]; destruct (act_id_match x); reflexivity|]. intros id Hx. cbn [table_rows]. apply act_id_ok in Hx. rewrite Hx. reflexivity.
  - apply act_id_ok in Hx. split; [|intros id _; cbn [table_rows]; rewrite Hx; reflexivity].
    apply act_id_not in Hz. cbn [table_rows] in IH1 |- *. rewrite Hx, Hz in *. cbn [map fst snd]. f_equal. exact IH1.
  - split; [|intros id Hx; cbn [table_rows]; apply act_id_ok in Hx; rewrite Hx; reflexivity].
    destruct (act_id_match x) eqn:Hx.
    + destruct Hxz as [Hxz|Hz]; [exfalso; apply Hxz, act_id_ok, Hx|]. cbn [table_rows]. rewrite Hx. rewrite <- IH1. exact (IH2 x Hz).
    + cbn [table_rows]. rewrite Hx. exact IH1.
Qed.
Lemma listed_exist texts : exists l, listed texts l.
Proof.
  induction texts as [|x texts [l IH]]; [exists []; constructor|]. destruct texts as [|y texts]; [exists []; constructor|].
  destruct (act_id_match x) eqn:Ex, (act_id_match y) eqn:Ey.
  - exists l. apply ls_other; [right; now apply act_id_ok|exact IH].
  - exists ((x, y) :: l). apply ls_act; [now apply act_id_ok|now apply act_id_not|exact IH].
  - exists l. apply ls_other; [left; now apply act_id_not|exact IH].
  - exists l. apply ls_other; [left; now apply act_id_not|exact IH].
Qed.

(** * Lines *)
Lemma csv_plain s : forall f t, ~ In 44%N s -> csv_fields InField f (s ++ 44%N :: t) = (f ++ s) :: csv_fields FieldStart [] t.
Proof.
  induction s as [|c s IH]; intros f t H; cbn [app csv_fields]; [now rewrite app_nil_r|].
  replace (c =? 44)%N with false by (symmetry; apply N.eqb_neq; intros ->; apply H; now left).
  rewrite IH by (intros I; apply H; now right). rewrite <- app_assoc. reflexivity.
Qed.
Lemma csv_plain_end s : forall f, ~ In 44%N s -> csv_fields InField f s = [f ++ s].
Proof.
  induction s as [|c s IH]; intros f H; cbn [csv_fields]; [now rewrite app_nil_r|].
  replace (c =? 44)%N with false by (symmetry; apply N.eqb_neq; intros ->; apply H; now left).
  rewrite IH by (intros I; apply H; now right). rewrite <- app_assoc. reflexivity.
Qed.
Definition starts_plain (s : pystr) : Prop := forall t, s <> 34%N :: t.
Lemma csv_first s t : ~ In 44%N s -> starts_plain s -> csv_fields FieldStart [] (s ++ 44%N :: t) = s :: csv_fields FieldStart [] t.
Proof.
  intros H P. destruct s as [|c s]; [reflexivity|]. cbn [app csv_fields].
  replace (c =? 44)%N with false by (symmetry; apply N.eqb_neq; intros ->; apply H; now left).
  replace (c =? 34)%N with false by (symmetry; apply N.eqb_neq; intros ->; exact (P s eq_refl)).
  rewrite csv_plain by (intros I; apply H; now right). reflexivity.
Qed.
Lemma csv_last s : ~ In 44%N s -> starts_plain s -> csv_fields FieldStart [] s = [s].
Proof.
  intros H P. destruct s as [|c s]; [reflexivity|]. cbn [app csv_fields].
  replace (c =? 44)%N with false by (symmetry; apply N.eqb_neq; intros ->; apply H; now left).
  replace (c =? 34)%N with false by (symmetry; apply N.eqb_neq; intros ->; exact (P s eq_refl)).
  rewrite csv_plain_end by (intros I; apply H; now right). reflexivity.
Qed.
Lemma csv_quoted s : forall f, ~ In 34%N s -> csv_fields InQuotes f (s ++ [34%N]) = [f ++ s].
Proof.
  induction s as [|c s IH]; intros f H; cbn [app csv_fields]; [now rewrite app_nil_r|].
  replace (c =? 34)%N with false by (symmetry; apply N.eqb_neq; intros ->; apply H; now left).
  rewrite IH by (intros I; apply H; now right). rewrite <- app_assoc. reflexivity.
Qed.
Lemma int_chars i c : In c (str_of_int i) -> (c = 45 \/ 48 <= c <= 57)%N.
Proof.
  unfold str_of_int. assert (D : forall n, In c (dec_N n) -> (48 <= c <= 57)%N). { intros n I. pose proof (dec_N_digits n) as H. unfold ascii_digits in H. rewrite Forall_forall in H. apply H in I. lia. }
  destruct (i <? 0); [intros [<-|I]; [now left|]|intros I]; right; eapply D; exact I.
Qed.
Lemma int_plain i : ~ In 44%N (str_of_int i) /\ starts_plain (str_of_int i) /\ ~ In 10%N (str_of_int i) /\ ~ In 13%N (str_of_int i).
Proof.
  repeat split; try (intros I; apply int_chars in I; lia). intros t E. assert (I : In 34%N (str_of_int i)) by (rewrite E; now left). apply int_chars in I. lia.
Qed.
Lemma csv_ok y i id t : starts_like_act id -> ~ In 44%N id -> ~ In 10%N (id ++ t) -> ~ In 13%N (id ++ t) ->
  ~ In 34%N t \/ ~ In 44%N t /\ starts_plain t -> csv_line (table_row y i id t) [str_of_int y; str_of_int i; id; t].
Proof.
  intros Hid H44 H10 H13 Ht. destruct (int_plain y) as (A1 & A2 & A3 & A4). destruct (int_plain i) as (B1 & B2 & B3 & B4).
  assert (P : starts_plain id) by (destruct Hid as (a & b & x & r & -> & _); intros u E; discriminate E).
  unfold table_row. set (d := if mem_chr 44 t then u8 """" ++ t ++ u8 """" else t).
  assert (D : forall c, In c d -> c = 34%N \/ In c t).
  { intros c. unfold d. destruct (mem_chr 44 t); [|auto]. rewrite !in_app_iff. intros [[<-|[]]|[I|[<-|[]]]]; auto. }
  rewrite in_app_iff in H10, H13.
  split; [|split].
  - rewrite !in_app_iff. intros [I|[[E|[]]|[I|[[E|[]]|[I|[[E|[]]|I]]]]]]; try discriminate; try tauto. apply D in I as [I|I]; [discriminate|tauto].
  - rewrite !in_app_iff. intros [I|[[E|[]]|[I|[[E|[]]|[I|[[E|[]]|I]]]]]]; try discriminate; try tauto. apply D in I as [I|I]; [discriminate|tauto].
  - unfold csv_read. cbn [app]. change (u8 ",") with [44%N]. cbn [app].
    rewrite (csv_first (str_of_int y)), (csv_first (str_of_int i)), (csv_first id) by assumption. do 3 f_equal.
    unfold d. destruct (mem_chr 44 t) eqn:E.
    + apply mem_chr_In in E. destruct Ht as [Ht|[Ht _]]; [|contradiction]. change (u8 """") with [34%N]. cbn [app csv_fields]. change (34 =? 44)%N with false. change (34 =? 34)%N with true. cbn iota.
      apply (csv_quoted t []). exact Ht.
    + assert (E' : ~ In 44%N t) by (intros I; apply mem_chr_In in I; congruence).
      apply csv_last; [exact E'|]. destruct Ht as [Ht|[_ Ht]]; [|exact Ht]. intros u ->. apply Ht. now left.
Qed.

(** * All issues *)
Lemma range_in a b x : In x (py_range a b) <-> a <= x < b.
Proof.
  unfold py_range. rewrite in_map_iff. split.
  - intros (k & <- & I). apply in_seq in I. lia.
  - intros H. exists (Z.to_nat (x - a)). split; [lia|]. apply in_seq. lia.
Qed.
Lemma range_sorted a b : StronglySorted Z.lt (py_range a b).
Proof.
  unfold py_range. generalize (Z.to_nat (b - a)). intros n. assert (H : forall s, StronglySorted Z.lt (map (fun k => a + Z.of_nat k) (seq s n))); [|apply H].
  induction n as [|n IH]; intros s; cbn [seq map]; constructor; [apply IH|]. apply Forall_forall. intros x I. apply in_map_iff in I as (k & <- & I). apply in_seq in I. lia.
Qed.
Definition all_issues : list (Z * Z) := flat_map (fun y => map (fun i => (y, i)) (py_range 1 360)) (py_range 2009 2020).
Lemma all_in y i : In (y, i) all_issues <-> in_years y i.
Proof.
  unfold all_issues, in_years. rewrite in_flat_map. split.
  - intros (y' & Hy & I). apply in_map_iff in I as (i' & E & Hi). injection E as -> ->. apply range_in in Hy, Hi. lia.
  - intros [Hy Hi]. exists y. split; [apply range_in; lia|]. apply in_map_iff. exists i. split; [reflexivity|apply range_in; lia].
Qed.
Lemma sorted_app {A} (R : A -> A -> Prop) l l' : StronglySorted R l -> StronglySorted R l' -> (forall x y, In x l -> In y l' -> R x y) -> StronglySorted R (l ++ l').
Proof.
  induction 1 as [|x l _ IH F]; intros S' H; cbn [app]; [exact S'|]. constructor; [apply IH; [exact S'|intros a b Ia Ib; apply H; [now right|exact Ib]]|].
  apply Forall_app. split; [exact F|]. apply Forall_forall. intros y I. apply H; [now left|exact I].
Qed.
Lemma all_sorted : StronglySorted earlier all_issues.
Proof.
  unfold all_issues. assert (H : forall ys, StronglySorted Z.lt ys -> StronglySorted earlier (flat_map (fun y => map (fun i => (y, i)) (py_range 1 360)) ys)); [|apply H, range_sorted].
  intros ys. induction 1 as [|y ys _ IH F]; cbn [flat_map]; [constructor|]. apply sorted_app; [|exact IH|].
  - generalize (range_sorted 1 360). generalize (py_range 1 360). intros is. induction 1 as [|i is _ IHi Fi]; cbn [map]; constructor; [exact IHi|].
    apply Forall_forall. intros p I. apply in_map_iff in I as (j & <- & I). rewrite Forall_forall in Fi. right. split; [reflexivity|]. exact (Fi j I).
  - intros p q Ip Iq. apply in_map_iff in Ip as (i & <- & _). apply in_flat_map in Iq as (y' & Iy & Iq). apply in_map_iff in Iq as (j & <- & _).
    rewrite Forall_forall in F. left. exact (F y' Iy).
Qed.
Lemma sorted_prefix {A} (R : A -> A -> Prop) l l' : StronglySorted R (l ++ l') -> StronglySorted R l.
Proof.
  induction l as [|x l IH]; intros H; [constructor|]. inversion H as [|x' l0 H1 H2]; subst. constructor; [exact (IH H1)|].
  apply Forall_app in H2. tauto.
Qed.
Lemma issues_ok e l : exists done rest lss, l = done ++ rest /\ fst (parse_issues e l) = map (fun p => contents_url (fst p) (snd p)) done /\ g_items (snd (parse_issues e l)) = concat lss /\
  match g_end (snd (parse_issues e l)) with
  | None => rest = [] /\ Forall2 (fun p ls => parse_single_issue e (fst p) (snd p) = Ok ls) done lss
  | Some x => exists before p, done = before ++ [p] /\ parse_single_issue e (fst p) (snd p) = Err x /\ Forall2 (fun p ls => parse_single_issue e (fst p) (snd p) = Ok ls) before lss
  end.
Proof.
  induction l as [|[y i] l IH]; [exists [], [], []; repeat split; constructor|]. cbn [parse_issues]. destruct (parse_single_issue e y i) as [ls|x] eqn:E.
  - destruct IH as (done & rest & lss & -> & F & G & H). exists ((y, i) :: done), rest, (ls :: lss). cbn [fst snd g_items g_end].
    split; [reflexivity|]. split; [cbn [map fst snd]; f_equal; exact F|]. split; [cbn [concat]; f_equal; exact G|].
    destruct (g_end (snd (parse_issues e (done ++ rest)))) as [x|].
    + destruct H as (before & p & -> & Ep & Fp). exists ((y, i) :: before), p. split; [reflexivity|]. split; [exact Ep|]. constructor; [exact E|exact Fp].
    + destruct H as [Hr Hf]. split; [exact Hr|]. constructor; [exact E|exact Hf].
  - exists [(y, i)], l, []. cbn [fst snd g_items g_end map]. split; [reflexivity|]. split; [reflexivity|]. split; [reflexivity|].
    exists [], (y, i). split; [reflexivity|]. split; [exact E|constructor].
Qed.
