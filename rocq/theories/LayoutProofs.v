(* Every layout of a tree is read as that tree. *)
From Coq Require Import Lia Permutation.
From Coq Require Import ZifyBool ZifyNat ZifyN.
From Verif Require Import PyBase PyBaseFacts NumModel IdModel LineModel DateModel RefModel TreeModel FixupModel StructModel.
From Verif Require Import NumSpec IdSpec LineSpec RefSpec TreeSpec FixupSpec StructSpec LayoutSpec NumProofs IdProofs LineProofs TreeProofs FixupProofs
  StructPatterns StructProofs StructProofs2 StructProofs3 StructProofs4 StructProofs5.
Local Open Scope Z_scope.

(** * The parser classes and their headers *)

Inductive class : pconf -> (option pystr -> res (list sub_parser)) -> sae_kind -> pystr -> Prop :=
| class_paragraph : class paragraph_conf paragraph_subs KParagraph (u8 "1")
| class_point : class alphabetic_point_conf alphabetic_point_subs KAlphabeticPoint (u8 "a")
| class_numeric_point : class numeric_point_conf numeric_point_subs KNumericPoint (u8 "1")
| class_subpoint q : Forall small_letter q -> class (alphabetic_subpoint_conf q) no_subs KAlphabeticSubpoint (q ++ u8 "a")
| class_numeric_subpoint : class numeric_subpoint_conf no_subs KNumericSubpoint (u8 "1").

Lemma class_known p subs k first : class p subs k first -> known_conf p /\ pc_kind p = k /\ pc_first p = first.
Proof. intros []; repeat split; constructor. Qed.

Lemma small_no_paren q : Forall small_letter q -> ~ In 41%N q.
Proof. intros Q H. rewrite Forall_forall in Q. apply Q in H. unfold small_letter in H. lia. Qed.
Lemma paren_unique : forall a b u v : pystr, ~ In 41%N a -> ~ In 41%N b -> a ++ u8 ") " ++ u = b ++ u8 ") " ++ v -> a = b.
Proof.
  induction a as [|x a IH]; intros [|y b] u v A B E; try reflexivity.
  - injection E as <- _. exfalso. apply B. now left.
  - injection E as -> _. exfalso. apply A. now left.
  - injection E as <- E. f_equal. apply (IH b u v); [intros Z; apply A; now right|intros Z; apply B; now right|exact E].
Qed.
Lemma match_alphabetic_digraph p i t : Forall small_letter p -> i = u8 "ny" \/ i = u8 "sz" -> match_alphabetic p (i ++ u8 ") " ++ t) = Some i.
Proof.
  intros P H. destruct (match_alphabetic p (i ++ u8 ") " ++ t)) as [j|] eqn:E.
  - apply match_alphabetic_spec in E as [J [t' E]]. f_equal. symmetry in E. apply (paren_unique j i t' t); [| |exact E].
    + destruct J as [(c & C & ->)|[-> | ->]]; [|intros [|[|[]]]; discriminate|intros [|[|[]]]; discriminate].
      apply small_no_paren, Forall_app. auto.
    + destruct H as [-> | ->]; intros [|[|[]]]; discriminate.
  - exfalso. unfold match_alphabetic in E.
    assert (O : (if startswith (u8 "ny) ") (i ++ u8 ") " ++ t) then Some (u8 "ny") else if startswith (u8 "sz) ") (i ++ u8 ") " ++ t) then Some (u8 "sz") else None) <> None).
    { destruct H as [-> | ->]; discriminate. }
    destruct (startswith p _); [|now rewrite E in O]. destruct (chr_then _ _ _); [discriminate|now rewrite E in O].
Qed.

Lemma extract_item p subs k first i l : class p subs k first -> item_id k first i -> begins_with (header k i) l ->
  extract_identifier p l = Some i.
Proof.
  intros C I [t E]. unfold extract_identifier. rewrite E. clear E.
  destruct C as [| | |q Q|]; cbn [pc_regex paragraph_conf alphabetic_point_conf numeric_point_conf alphabetic_subpoint_conf numeric_subpoint_conf header].
  - apply match_paragraph_spec. inversion I as [? ? n j N S|? ? ? n j []|? ? ? []|? ? ? []]; subst; try discriminate.
    exists n, j, t. rewrite <- !app_assoc. auto.
  - inversion I as [|? ? ? ? ? []|k' q c K L E1 E2|? ? ? K D]; subst; try discriminate.
    + apply (app_inj_tail q []) in E2 as [-> _]. rewrite <- app_assoc. now apply (match_alphabetic_letter []).
    + rewrite <- app_assoc. apply match_alphabetic_digraph; [constructor|exact D].
  - apply match_numeric_spec. inversion I as [|? ? ? n j K N|? ? ? []|? ? ? []]; subst; try discriminate.
    exists n, j, t. rewrite <- app_assoc. auto.
  - inversion I as [|? ? ? ? ? []|k' q' c K L E1 E2|? ? ? K D]; subst; try discriminate.
    + apply app_inj_tail in E2 as [-> _]. rewrite <- (app_assoc (q ++ [c])). now apply match_alphabetic_letter.
    + rewrite <- app_assoc. now apply match_alphabetic_digraph.
  - apply match_numeric_spec. inversion I as [|? ? ? n j K N|? ? ? []|? ? ? []]; subst; try discriminate.
    exists n, j, t. rewrite <- app_assoc. auto.
Qed.
Lemma extract_item_inv p subs k first i l : class p subs k first -> extract_identifier p l = Some i ->
  item_id k first i /\ begins_with (header k i) l.
Proof.
  intros C H. pose proof (class_known _ _ _ _ C) as (K & EK & EF). split.
  - unfold extract_identifier in H. destruct C as [| | |q Q|]; cbn [pc_regex paragraph_conf alphabetic_point_conf numeric_point_conf alphabetic_subpoint_conf numeric_subpoint_conf] in H.
    + apply match_paragraph_spec in H as (n & j & t & N & S & _). econstructor; eauto.
    + apply match_alphabetic_spec in H as [[(c & C & ->)|H] _]; [apply (item_letter _ []); auto|apply item_digraph; auto].
    + apply match_numeric_spec in H as (n & j & t & N & _). eapply item_number; eauto.
    + apply match_alphabetic_spec in H as [[(c & C & ->)|H] _]; [apply item_letter; auto|apply item_digraph; auto].
    + apply match_numeric_spec in H as (n & j & t & N & _). eapply item_number; eauto.
  - apply conf_regex in H as [t H]; [|exact K]. exists t. now rewrite <- EK.
Qed.
Lemma first_item p subs k first : class p subs k first -> item_id k first first.
Proof.
  assert (N1 : numbered (u8 "1") 1 None) by (apply (numbered_plain (u8 "1")); [repeat constructor; discriminate|discriminate]).
  intros []; try (eapply item_number; eauto; fail).
  - eapply item_paragraph; [exact N1|]. intros [|[]]; discriminate.
  - apply (item_letter KAlphabeticPoint [] 97%N); [auto|unfold small_letter; lia].
  - apply (item_letter KAlphabeticSubpoint q 97%N); [auto|unfold small_letter; lia].
Qed.

(** * Which identifier follows *)

Lemma digits_slash d slash c : ascii_digits d -> slash = [] \/ slash = [47%N] -> small_letter c -> remove_chr 47 (d ++ slash ++ [c]) = d ++ [c].
Proof.
  intros D S L. unfold small_letter in L. rewrite !remove_chr_app, remove_chr_digits by exact D. f_equal.
  assert (X : remove_chr 47 [c] = [c]) by (cbn; now replace (negb (c =? 47)%N) with true by lia).
  destruct S as [-> | ->]; cbn [app]; [exact X|]. change (remove_chr 47 [47%N]) with (@nil N). exact X.
Qed.

Lemma next_ok k i j : next_item k i j -> sae_is_next_identifier k i j = Ok true.
Proof.
  assert (NK : forall k, is_numeric_kind k -> forall i j, sae_is_next_identifier k i j = is_next_numeric_identifier i j).
  { intros k' [->|[->| ->]] ? ?; reflexivity. }
  intros [k' a b n l K A B|k' d s K D N S|k' d s s' c K D N S S' C C'|k' a b K F|p x X].
  - rewrite (NK _ K). destruct (numbered_next a b _ _ _ _ A B) as (r & -> & _ & H). f_equal. apply H; [reflexivity|constructor].
  - rewrite (NK _ K). unfold is_next_numeric_identifier. change (u8 "a") with [97%N]. rewrite (digits_slash d s) by (auto; unfold small_letter; lia).
    rewrite remove_chr_digits by exact D. rewrite (ascii_digits_isdigit d) by assumption.
    change [97%N] with (letter_of (Some 97%N)). rewrite isdigit_letter by (auto; intros ? [= <-]; unfold small_letter; lia).
    cbn [letter_of]. change (u8 "a") with [97%N]. now rewrite str_eqb_refl.
  - rewrite (NK _ K). unfold is_next_numeric_identifier. rewrite !digits_slash by assumption.
    change [c] with (letter_of (Some c)). change [(c + 1)%N] with (letter_of (Some (c + 1)%N)).
    rewrite !isdigit_letter by (auto; now intros ? [= <-]). cbn [letter_of]. rewrite !drop_last_snoc, !last_chr_snoc, str_eqb_refl.
    cbn [bind]. f_equal. now apply next_letter_single.
  - pose proof (follows_in_In _ _ _ F) as [IA IB]. apply (letters_both list_alphabet (or_introl eq_refl)) in F; [|assumption|assumption].
    destruct K as [->|[-> L]]; cbn [sae_is_next_identifier]; [now rewrite F|]. destruct a as [|a0 [|]]; try discriminate. now rewrite F.
  - cbn [sae_is_next_identifier chr_at nth_error bind]. rewrite str_eqb_refl. f_equal. now apply next_letter_single.
Qed.

Lemma subpoint_id k q i : k = KAlphabeticPoint \/ k = KAlphabeticSubpoint -> item_id k (q ++ u8 "a") i ->
  (exists c, small_letter c /\ i = q ++ [c]) \/ i = u8 "ny" \/ i = u8 "sz".
Proof.
  intros K H. remember (q ++ u8 "a") as f eqn:F. destruct H as [f i n l N S|k f i n l K' N|k q' c K' L|k f i K' D].
  - destruct K; discriminate.
  - destruct K as [-> | ->], K'; discriminate.
  - apply app_inj_tail in F as [-> _]. left. eauto.
  - now right.
Qed.

(* a line that is not the next header *)
Lemma quiet_extract p subs k first i x l j : class p subs k first -> item_id k first i ->
  quiet k first i x l -> extract_identifier p l = Some j ->
  stands_deeper x l \/ sae_is_next_identifier k i j = Ok false.
Proof.
  intros C I Q H. pose proof (class_known _ _ _ _ C) as (KC & EK & EF).
  destruct (extract_item_inv _ _ _ _ _ _ C H) as [J B]. destruct (Q j J B) as [D|[NF L]]; [now left|]. right.
  assert (NK : is_numeric_kind k -> sae_is_next_identifier k i j = Ok false).
  { intros K. assert (E : sae_is_next_identifier k i j = is_next_numeric_identifier i j) by (destruct K as [->|[->| ->]]; reflexivity).
    rewrite E.
    assert (NN : forall a, item_id k first a -> exists n l, numbered a n l).
    { intros a A. destruct K as [->|[->| ->]]; inversion A as [? ? n m|? ? ? n m|? ? ? []|? ? ? []]; subst; try discriminate; eauto. }
    destruct (NN i I) as (n & ln & NI). destruct (NN j J) as (m & lm & NJ).
    destruct (numbered_next i j _ _ _ _ NI NJ) as (r & -> & R & _). destruct r; [|reflexivity]. exfalso. apply NF.
    eapply follows_number; eauto. }
  assert (alpha : forall a, In a list_alphabet -> In j list_alphabet -> (k = KAlphabeticPoint \/ k = KAlphabeticSubpoint /\ List.length a = 1%nat) -> a = i -> is_next_letter_hun i j = false).
  { intros a A1 A2 K ->. destruct (is_next_letter_hun i j) eqn:E; [|reflexivity]. exfalso. apply NF.
    apply follows_letter; [exact K|]. now apply (letters_both list_alphabet (or_introl eq_refl)). }
  destruct C as [| | |q SQ|]; try (apply NK; unfold is_numeric_kind; auto; fail).
  - cbn [sae_is_next_identifier]. f_equal.
    assert (A : forall a, item_id KAlphabeticPoint (u8 "a") a -> In a list_alphabet).
    { intros a A. inversion A as [|? ? ? ? ? []|k' q c K S E1 E2|? ? ? K D]; subst; try discriminate.
      - apply (app_inj_tail q []) in E2 as [-> _]. now apply small_in_alphabet.
      - destruct D as [-> | ->]; apply alphabet_digraphs. }
    apply (alpha i); auto.
  - cbn [sae_is_next_identifier]. specialize (L eq_refl).
    assert (SM : forall a, item_id KAlphabeticSubpoint (q ++ u8 "a") a -> Forall small_letter a).
    { intros a A. inversion A as [|? ? ? ? ? []|k' q' c K S E1 E2|? ? ? K D]; subst; try discriminate.
      - apply app_inj_tail in E2 as [-> _]. apply Forall_app. auto.
      - destruct D as [-> | ->]; repeat constructor; discriminate. }
    destruct L as [L|[L L']].
    + destruct i as [|c [|]]; try discriminate. f_equal. destruct (is_next_letter_hun [c] j) eqn:E; [|reflexivity]. exfalso.
      apply NF. apply follows_letter; [right; auto|].
      assert (JA : In j list_alphabet).
      { inversion J as [|? ? ? ? ? []|k' q' c' K S E1 E2|? ? ? K D]; subst; try discriminate.
        - apply app_inj_tail in E2 as [-> _].
          assert (Q0 : q = []).
          { clear - I. apply subpoint_id in I as [(c' & _ & E)|[|]]; [|discriminate|discriminate|auto].
            apply (f_equal (@List.length N)) in E. rewrite app_length in E. cbn in E. destruct q; [reflexivity|cbn in E; lia]. }
          subst q. now apply small_in_alphabet.
        - destruct D as [-> | ->]; apply alphabet_digraphs. }
      apply (letters_both list_alphabet (or_introl eq_refl)); [|exact JA|exact E]. apply small_in_alphabet. apply SM in I. now inversion I.
    + destruct i as [|a [|b [|]]]; try discriminate. destruct j as [|c [|d [|]]]; try discriminate. cbn [chr_at nth_error bind].
      destruct (str_eqb [a] [c]) eqn:E; [|reflexivity]. apply str_eqb_eq in E. injection E as <-. f_equal.
      destruct (is_next_letter_hun [b] [d]) eqn:E; [|reflexivity]. exfalso. apply NF. apply next_letter_single in E as ->.
      apply follows_prefixed. exact (Forall_inv (Forall_inv_tail (SM _ J))).
Qed.

(** * Looking for headers *)

Lemma balanced_loop q l ls : balanced q (l :: ls) ->
  quote_level_loop true q (l :: ls) = mk_gen ((q, l) :: g_items (quote_level_loop true (q + open_after [l]) ls)) (g_end (quote_level_loop true (q + open_after [l]) ls)).
Proof.
  intros H. inversion H as [|? ? ? N B]; subst. cbn [quote_level_loop andb].
  assert (D : quote_level_diff (l_content l) = open_after [l]) by (rewrite open_after_cons; change (open_after []) with 0; lia).
  rewrite D. now replace (q + open_after [l] <? 0) with false by lia.
Qed.
Lemma balanced_level q ls : balanced q ls -> q + open_after ls = 0.
Proof.
  induction 1 as [|q l ls N B IH]; [reflexivity|]. change (l :: ls) with ([l] ++ ls). rewrite open_after_app. lia.
Qed.
Lemma balanced_join q a b : balanced q a -> balanced 0 b -> balanced q (a ++ b).
Proof. induction 1 as [|q l ls N B IH]; intros H; [exact H|]. cbn [app]. constructor; auto. Qed.
Lemma balanced_tail q a b : balanced q (a ++ b) -> balanced (q + open_after a) b.
Proof.
  revert q. induction a as [|l a IH]; intros q H; cbn [app] in H.
  - change (open_after []) with 0. now rewrite Z.add_0_r.
  - inversion H as [|? ? ? N B]; subst. apply IH in B. change (l :: a) with ([l] ++ a). rewrite open_after_app. now rewrite Z.add_assoc.
Qed.

Definition hloop (p : pconf) (n : nat) (q : Z) (ls : list line) (last : option (pystr * pyfloat)) : gen nat :=
  find_header_loop p (pc_first p) n (g_items (quote_level_loop true q ls)) last (g_end (quote_level_loop true q ls)).

Lemma deeper_test x l : negb (similar_indent x (l_indent l)) && f_ltb x (l_indent l) = true <-> stands_deeper x l.
Proof.
  unfold stands_deeper, similar_indent, f_abs. rewrite andb_true_iff, negb_true_iff. tauto.
Qed.
Lemma hloop_cons p n q l ls last : balanced q (l :: ls) -> hloop p n q (l :: ls) last =
  let next := fun last => hloop p (S n) (q + open_after [l]) ls last in
  if negb (q =? 0) then next last
  else if match last with Some (_, x) => negb (similar_indent x (l_indent l)) && f_ltb x (l_indent l) | None => false end then next last
  else match extract_identifier p l with
       | None => next last
       | Some i =>
           match (match last with None => Ok (str_eqb i (pc_first p)) | Some (a, _) => sae_is_next_identifier (pc_kind p) a i end) with
           | Err e => mk_gen [] (Some e)
           | Ok false => next last
           | Ok true => mk_gen (n :: g_items (next (Some (i, l_indent l)))) (g_end (next (Some (i, l_indent l))))
           end
       end.
Proof. intros B. unfold hloop. rewrite (balanced_loop _ _ _ B). reflexivity. Qed.

Lemma hloop_quiet p subs k first i x : class p subs k first -> item_id k first i -> forall g q n rest,
  balanced q (g ++ rest) -> outside (quiet k first i x) q g ->
  hloop p n q (g ++ rest) (Some (i, x)) = hloop p (n + List.length g) (q + open_after g) rest (Some (i, x)).
Proof.
  intros C I. pose proof (class_known _ _ _ _ C) as (KC & EK & EF). induction g as [|l g IH]; intros q n rest B O.
  - change (open_after []) with 0. cbn [List.length]. now rewrite Nat.add_0_r, Z.add_0_r.
  - inversion O as [|? ? ? P O']; subst. cbn [app] in *. rewrite hloop_cons by exact B. inversion B as [|? ? ? N B']; subst.
    specialize (IH _ (S n) rest B' O'). 
    replace (n + List.length (l :: g))%nat with (S n + List.length g)%nat by (cbn [List.length]; lia).
    replace (q + open_after (l :: g)) with (q + open_after [l] + open_after g) by (change (l :: g) with ([l] ++ g); rewrite open_after_app; lia).
    rewrite <- IH. cbv zeta. destruct (Z.eqb_spec q 0) as [->|Q]; cbn [negb]; [|reflexivity].
    destruct (negb (similar_indent x (l_indent l)) && f_ltb x (l_indent l)) eqn:D; [reflexivity|].
    destruct (extract_identifier p l) as [j|] eqn:E; [|reflexivity].
    destruct (quiet_extract _ _ _ _ _ _ _ _ C I (P eq_refl) E) as [X|X]; [apply deeper_test in X; congruence|].
    now rewrite X.
Qed.

(* the expected header *)
Definition expected (k : sae_kind) (first : pystr) (last : option (pystr * pyfloat)) (i : pystr) (l : line) : Prop :=
  match last with None => i = first | Some (a, x) => next_item k a i /\ ~ stands_deeper x l end.
Lemma hloop_header p subs k first i l ls n last : class p subs k first -> item_id k first i -> begins_with (header k i) l ->
  expected k first last i l -> balanced 0 (l :: ls) ->
  hloop p n 0 (l :: ls) last = let g := hloop p (S n) (open_after [l]) ls (Some (i, l_indent l)) in mk_gen (n :: g_items g) (g_end g).
Proof.
  intros C I H X B. rewrite hloop_cons by exact B. pose proof (class_known _ _ _ _ C) as (KC & EK & EF). cbv zeta.
  change (negb (0 =? 0)) with false. cbv iota. rewrite (extract_item _ _ _ _ _ _ C I H), EF, EK.
  destruct last as [[a x]|]; cbn [expected] in X.
  - destruct X as [X ND]. destruct (negb (similar_indent x (l_indent l)) && f_ltb x (l_indent l)) eqn:D; [exfalso; now apply ND, deeper_test|].
    now rewrite (next_ok _ _ _ X).
  - subst. now rewrite str_eqb_refl.
Qed.

Fixpoint offsets (n : nat) (groups : list (list line)) : list nat :=
  match groups with
  | [] => []
  | g :: t => n :: offsets (n + List.length g) t
  end.
Lemma hloop_group p subs k first i l g rest n last : class p subs k first -> item_id k first i -> begins_with (header k i) l ->
  expected k first last i l -> balanced 0 (l :: g ++ rest) -> outside (quiet k first i (l_indent l)) (open_after [l]) g ->
  hloop p n 0 (l :: g ++ rest) last =
  let r := hloop p (n + List.length (l :: g)) (open_after (l :: g)) rest (Some (i, l_indent l)) in mk_gen (n :: g_items r) (g_end r).
Proof.
  intros C I H X B O. rewrite (hloop_header _ _ _ _ _ _ _ _ _ C I H X B). cbv zeta.
  inversion B as [|? ? ? N B']; subst. rewrite Z.add_0_l in B'. rewrite (hloop_quiet _ _ _ _ _ _ C I g _ _ _ B' O).
  replace (S n + List.length g)%nat with (n + List.length (l :: g))%nat by (cbn [List.length]; lia).
  replace (open_after [l] + open_after g) with (open_after (l :: g)) by (change (l :: g) with ([l] ++ g); rewrite open_after_app; lia).
  reflexivity.
Qed.

Lemma items_offsets parse : forall gs lg pre n es, (n = List.length pre)%nat -> Forall2 (fun g e => parse g = Ok e) gs es ->
  parse_items parse (pre ++ concat gs ++ lg) (offsets n (gs ++ [lg])) = Ok es.
Proof.
  induction gs as [|g gs IH]; intros lg pre n es N F; inversion F as [|? e ? es' P F']; subst; [reflexivity|].
  assert (S : forall b, slice_nat (List.length pre) (List.length pre + List.length g) (pre ++ g ++ b) = g) by (intros b; apply slice_nat_mid).
  assert (IH' : parse_items parse (pre ++ concat (g :: gs) ++ lg) (offsets (List.length pre + List.length g) (gs ++ [lg])) = Ok es').
  { specialize (IH lg (pre ++ g) (List.length (pre ++ g)) es' eq_refl F'). rewrite app_length in IH. cbn [concat].
    now rewrite <- !app_assoc in *. }
  cbn [app offsets]. destruct gs as [|g' gs]; cbn [app offsets] in *; cbn [parse_items]; cbn [parse_items] in IH';
    rewrite IH'; cbn [concat]; rewrite <- !app_assoc, S, P; reflexivity.
Qed.
Lemma last_offset : forall gs (lg : list line) n, last (offsets n (gs ++ [lg])) O = (n + List.length (concat gs))%nat.
Proof.
  induction gs as [|g gs IH]; intros lg n; cbn [app offsets concat]; [cbn; lia|].
  specialize (IH lg (n + List.length g)%nat). destruct (offsets (n + List.length g) (gs ++ [lg])) as [|x t] eqn:E.
  - destruct gs; discriminate.
  - rewrite app_length. change (last (n :: x :: t) O) with (last (x :: t) O). rewrite IH. lia.
Qed.

(** * The first headers *)

Fixpoint first_at (f : line -> bool) (n : nat) (q : Z) (ls : list line) : option nat :=
  match ls with
  | [] => None
  | l :: t => if (q =? 0) && f l then Some n else first_at f (S n) (q + open_after [l]) t
  end.
Definition starts_list (p : pconf) (l : line) : bool :=
  match extract_identifier p l with Some i => str_eqb i (pc_first p) | None => false end.
Definition starts_quote (l : line) : bool := match l_content l with c :: _ => is_open_quote c | [] => false end.

Lemma find_first_at p : forall ls n q, balanced q ls -> gen_first (hloop p n q ls None) = Ok (first_at (starts_list p) n q ls).
Proof.
  induction ls as [|l ls IH]; intros n q B.
  - inversion B; subst. reflexivity.
  - rewrite hloop_cons by exact B. inversion B as [|? ? ? N B']; subst. specialize (IH (S n) _ B'). cbn [first_at]. unfold starts_list at 1.
    cbv zeta. destruct (q =? 0); cbn [negb andb]; [|exact IH].
    destruct (extract_identifier p l) as [i|]; [|exact IH]. destruct (str_eqb i (pc_first p)); [reflexivity|exact IH].
Qed.
Lemma typed_content l : typed l -> l_content l = [] -> blank l.
Proof.
  unfold typed, l_content, blank. intros T E. destruct (l_parts l) as [|p ps]; [reflexivity|]. inversion T as [|? ? H]; subst.
  cbn in E. apply app_eq_nil in E as [E _]. rewrite E in H. discriminate.
Qed.
Lemma quoted_first_at : forall ls n q, balanced q ls -> Forall typed ls ->
  quoted_header_loop n (g_items (quote_level_loop true q ls)) (g_end (quote_level_loop true q ls)) = Ok (first_at starts_quote n q ls).
Proof.
  induction ls as [|l ls IH]; intros n q B T.
  - inversion B; subst. reflexivity.
  - rewrite (balanced_loop _ _ _ B). inversion B as [|? ? ? N B']; subst. inversion T as [|? ? T1 T2]; subst.
    specialize (IH (S n) _ B' T2). cbn [g_items g_end quoted_header_loop first_at]. unfold starts_quote at 1.
    destruct (q =? 0); cbn [andb]; [|exact IH]. unfold not_empty_line. destruct (is_empty_line l) eqn:E; cbn [negb].
    + apply not_empty_spec in E. rewrite (blank_content _ E). exact IH.
    + destruct (l_content l) as [|c t] eqn:EC.
      * apply typed_content in EC; [|exact T1]. apply not_empty_spec in EC. congruence.
      * cbn [first_chr bind]. destruct (is_open_quote c); [reflexivity|exact IH].
Qed.
Lemma first_at_skip f a : forall b n q, outside (fun l => f l = false) q a ->
  first_at f n q (a ++ b) = first_at f (n + List.length a) (q + open_after a) b.
Proof.
  induction a as [|l a IH]; intros b n q O.
  - change (open_after []) with 0. cbn [List.length app]. now rewrite Nat.add_0_r, Z.add_0_r.
  - inversion O as [|? ? ? P O']; subst. cbn [app first_at].
    assert (X : (q =? 0) && f l = false) by (destruct (Z.eqb_spec q 0); [cbn; auto|reflexivity]). rewrite X, IH by exact O'.
    cbn [List.length]. rewrite Nat.add_succ_r. change (l :: a) with ([l] ++ a). rewrite open_after_app. f_equal. lia.
Qed.
Lemma first_at_spec f : forall ls n q m, first_at f n q ls = Some m ->
  (n <= m)%nat /\ exists l, nth_error ls (m - n) = Some l /\ f l = true.
Proof.
  induction ls as [|l ls IH]; intros n q m H; [discriminate|]. cbn [first_at] in H.
  destruct ((q =? 0) && f l) eqn:E.
  - injection H as <-. split; [lia|]. exists l. rewrite Nat.sub_diag. split; [reflexivity|]. now apply andb_true_iff in E as [_ E].
  - apply IH in H as [L (x & X & F)]. split; [lia|]. exists x. split; [|exact F]. replace (m - n)%nat with (S (m - S n)) by lia. exact X.
Qed.
Lemma outside_impl (P Q : line -> Prop) : (forall l, P l -> Q l) -> forall ls q, outside P q ls -> outside Q q ls.
Proof. intros H ls q O. induction O; constructor; auto. Qed.

Lemma sorted_headers : forall l, NoDup (map fst l) -> exists r, sort_headers l = Ok r /\ Permutation l r /\
  match r with [] => True | x :: t => Forall (fun y => (fst x < fst y)%nat) t end.
Proof.
  assert (X : forall l, NoDup (map fst l) -> exists r, sort_headers l = Ok r /\ Permutation l r /\
    Sorted.StronglySorted (fun x y : nat * sub_parser => (fst x < fst y)%nat) r).
  2:{ intros l N. destruct (X l N) as (r & S & P & O). exists r. split; [exact S|]. split; [exact P|]. now destruct O. }
  induction l as [|x l IH]; intros N; [exists []; repeat constructor|]. inversion N as [|? ? N1 N2]; subst.
  destruct (IH N2) as (r & S & P & O). cbn [sort_headers]. rewrite S. cbn [bind].
  assert (NI : forall y, In y r -> fst x <> fst y).
  { intros y Y E. apply N1. rewrite E. apply in_map. eapply Permutation_in; [symmetry; exact P|exact Y]. }
  clear - P O NI. revert NI. assert (I : (forall y, In y r -> fst x <> fst y) -> exists r', insert_header x r = Ok r' /\ Permutation (x :: r) r' /\
    Sorted.StronglySorted (fun x y : nat * sub_parser => (fst x < fst y)%nat) r').
  { clear P. induction O as [|y r O IH F]; intros NI; [exists [x]; repeat constructor|].
    cbn [insert_header]. destruct (Nat.eqb_spec (fst x) (fst y)) as [E|NE]; [exfalso; apply (NI y); [now left|exact E]|].
    destruct (Nat.ltb_spec (fst x) (fst y)).
    - exists (x :: y :: r). split; [reflexivity|]. split; [reflexivity|]. constructor; [now constructor|]. constructor; [assumption|].
      eapply Forall_impl; [|exact F]. cbv beta. intros. lia.
    - destruct IH as (r' & E & P & O'); [intros z Z; apply NI; now right|]. rewrite E. cbn [bind]. exists (y :: r'). split; [reflexivity|].
      split; [rewrite perm_swap; now constructor|]. constructor; [exact O'|]. rewrite Forall_forall. intros z Z.
      apply (Permutation_in z (Permutation_sym P)) in Z as [<-|Z]; [lia|]. rewrite Forall_forall in F. now apply F. }
  intros NI. destruct (I NI) as (r' & E & P' & O'). exists r'. split; [exact E|]. split; [|exact O']. rewrite <- P'. now constructor.
Qed.

(** * Children *)

Definition sub_test := (sub_parser * (line -> bool))%type.
Definition good_test (t : sub_test) : Prop :=
  sp_must_have_intro (fst t) = true /\
  forall ls, balanced 0 ls -> Forall typed ls -> sp_first_header (fst t) ls = Ok (first_at (snd t) 0 0 ls).
Definition excludes (a b : sub_test) : Prop := forall l, snd a l = true -> snd b l = true -> False.

Definition found (lines : list line) (t : sub_test) : list (nat * sub_parser) :=
  match first_at (snd t) 0 0 lines with Some (S n) => [(S n, fst t)] | _ => [] end.
Lemma first_headers_found lines tests : Forall good_test tests -> balanced 0 lines -> Forall typed lines ->
  first_headers (map fst tests) lines = Ok (flat_map (found lines) tests).
Proof.
  intros G B T. induction G as [|[s f] tests [M F] G IH]; [reflexivity|]. cbn [map first_headers flat_map fst snd] in *.
  rewrite (F _ B T), IH. cbn [bind]. rewrite M.
  assert (X : found lines (s, f) = match first_at f 0 0 lines with Some (S n) => [(S n, s)] | _ => [] end) by reflexivity. rewrite X.
  destruct (first_at f 0 0 lines) as [[|n]|]; reflexivity.
Qed.
Lemma found_nodup lines tests : ForallOrdPairs excludes tests -> NoDup (map fst (flat_map (found lines) tests)).
Proof.
  induction 1 as [|t tests E O IH]; [constructor|]. cbn [flat_map]. rewrite map_app.
  unfold found at 1. destruct (first_at (snd t) 0 0 lines) as [[|n]|] eqn:F; try exact IH. cbn [map app]. constructor; [|exact IH].
  intros I. apply in_map_iff in I as ([m s] & E1 & I). cbn in E1. subst m. apply in_flat_map in I as (t' & I' & I).
  unfold found in I. destruct (first_at (snd t') 0 0 lines) as [[|m]|] eqn:F'; try contradiction. destruct I as [I|[]]. injection I as <- <-.
  rewrite Forall_forall in E. specialize (E _ I').
  apply first_at_spec in F as [_ (l & N & L)]. apply first_at_spec in F' as [_ (l' & N' & L')].
  rewrite N in N'. injection N' as <-. now apply (E l).
Qed.
Lemma found_at f pre l rest : open_after pre = 0 -> outside (fun l => f l = false) 0 pre -> f l = true ->
  first_at f 0 0 (pre ++ l :: rest) = Some (List.length pre).
Proof. intros O Q F. rewrite first_at_skip by exact Q. rewrite O. cbn [first_at]. now rewrite F. Qed.

Lemma children_found tests pre l rest s f pi cs w : Forall good_test tests -> ForallOrdPairs excludes tests ->
  balanced 0 (pre ++ l :: rest) -> Forall typed (pre ++ l :: rest) -> pre <> [] -> open_after pre = 0 ->
  Forall (fun t => outside (fun l => snd t l = false) 0 pre) tests -> In (s, f) tests -> f l = true ->
  sp_extract s (l :: rest) pi = Ok (cs, w) ->
  parse_children_and_wrapup (map fst tests) (pre ++ l :: rest) pi = Ok (Some (joined_lines pre), cs, w).
Proof.
  intros G EX B T NE O OUT I F H. unfold parse_children_and_wrapup. rewrite first_headers_found by assumption. cbn [bind].
  destruct (sorted_headers _ (found_nodup (pre ++ l :: rest) tests EX)) as (r & S & P & HD). rewrite S. cbn [bind].
  assert (IN : In (List.length pre, s) r).
  { eapply Permutation_in; [exact P|]. apply in_flat_map. exists (s, f). split; [exact I|]. unfold found. cbn [fst snd].
    rewrite Forall_forall in OUT. rewrite (found_at f pre l rest O (OUT _ I) F). destruct pre; [contradiction|]. now left. }
  assert (LE : forall m s', In (m, s') r -> (List.length pre <= m)%nat).
  { intros m s' M. eapply Permutation_in in M; [|symmetry; exact P]. apply in_flat_map in M as (t' & I' & M). unfold found in M.
    rewrite Forall_forall in OUT. specialize (OUT _ I'). rewrite first_at_skip in M by exact OUT.
    destruct (first_at _ _ _ _) as [[|m']|] eqn:E; try contradiction. destruct M as [M|[]]. injection M as <- <-. apply first_at_spec in E as [E _]. cbn in E. lia. }
  destruct r as [|[m s'] r]; [destruct IN|].
  destruct IN as [E|IN].
  - injection E as -> ->. cbn [try_headers]. rewrite skipn_app, skipn_all, Nat.sub_diag. cbn [app skipn]. rewrite H.
    rewrite firstn_app, firstn_all, Nat.sub_diag. cbn [firstn]. rewrite app_nil_r. destruct pre; [contradiction|]. reflexivity.
  - exfalso. rewrite Forall_forall in HD. specialize (HD _ IN). cbn in HD. specialize (LE m s' (or_introl eq_refl)). lia.
Qed.
Lemma no_children_found tests lines pi : Forall good_test tests -> balanced 0 lines -> Forall typed lines ->
  Forall (fun t => outside (fun l => snd t l = false) 0 lines) tests ->
  parse_children_and_wrapup (map fst tests) lines pi = Err NoSubelementsError.
Proof.
  intros G B T OUT. unfold parse_children_and_wrapup. rewrite first_headers_found by assumption. cbn [bind].
  replace (flat_map (found lines) tests) with (@nil (nat * sub_parser)); [reflexivity|]. symmetry. clear - OUT.
  induction OUT as [|t tests O OUT IH]; [reflexivity|]. cbn [flat_map]. rewrite IH. unfold found.
  rewrite <- (app_nil_r lines), first_at_skip by exact O. reflexivity.
Qed.

Lemma starts_list_spec p subs k first l : class p subs k first -> starts_list p l = true <-> begins_with (header k first) l.
Proof.
  intros C. pose proof (class_known _ _ _ _ C) as (_ & _ & EF). unfold starts_list. rewrite EF. split.
  - destruct (extract_identifier p l) as [i|] eqn:E; [|discriminate]. intros H. apply str_eqb_eq in H. subst.
    now apply (extract_item_inv _ _ _ _ _ _ C) in E.
  - intros H. rewrite (extract_item _ _ _ _ _ _ C (first_item _ _ _ _ C) H). apply str_eqb_refl.
Qed.
Lemma starts_quote_spec l : starts_quote l = true <-> exists c, opens c /\ begins_with [c] l.
Proof.
  unfold starts_quote. split.
  - destruct (l_content l) as [|c t] eqn:E; [discriminate|]. intros H. apply open_quote_spec in H. exists c. split; [exact H|]. now exists t.
  - intros (c & O & t & ->). now apply open_quote_spec.
Qed.
Lemma quoted_good : good_test (quoted_sub, starts_quote).
Proof. split; [reflexivity|]. intros ls B T. now apply quoted_first_at. Qed.
Lemma list_good p subs : pc_must_have_intro p = true -> good_test (as_sub p subs, starts_list p).
Proof. intros M. split; [exact M|]. intros ls B T. now apply find_first_at. Qed.

Lemma starts_exclude p subs k first p' subs' k' first' c d r r' : class p subs k first -> class p' subs' k' first' ->
  header k first = c :: r -> header k' first' = d :: r' -> c <> d ->
  excludes (as_sub p subs, starts_list p) (as_sub p' subs', starts_list p').
Proof.
  intros C C' H H' N l A B. cbn [snd] in *. apply (starts_list_spec _ _ _ _ _ C) in A as [t A]. apply (starts_list_spec _ _ _ _ _ C') in B as [t' B].
  rewrite A, H, H' in B. injection B as B _. contradiction.
Qed.
Lemma quote_excludes p subs k first c r : class p subs k first -> header k first = c :: r -> (c < 8220)%N ->
  excludes (quoted_sub, starts_quote) (as_sub p subs, starts_list p).
Proof.
  intros C H N l A B. cbn [snd] in *. apply starts_quote_spec in A as (q & Q & t & A). apply (starts_list_spec _ _ _ _ _ C) in B as [t' B].
  rewrite A, H in B. injection B as B _. destruct Q; lia.
Qed.

Lemma point_small first i : item_id KAlphabeticPoint (u8 "a") i -> first = i -> Forall small_letter i /\ i <> [].
Proof.
  intros H _. apply (subpoint_id _ []) in H as [(c & C & ->)|[-> | ->]]; [| | |now left]; (split; [|discriminate]).
  - now constructor.
  - repeat constructor; discriminate.
  - repeat constructor; discriminate.
Qed.

Lemma subs_tests p subs k first i : class p subs k first -> (i = None -> k = KParagraph) -> (forall j, i = Some j -> item_id k first j) ->
  exists tests : list sub_test, subs i = Ok (map fst tests) /\ Forall good_test tests /\ ForallOrdPairs excludes tests /\
    (forall l, starts_nothing k i l -> Forall (fun t => snd t l = false) tests) /\
    (forall ck cf, child_list k i ck cf -> exists cp cs, class cp cs ck cf /\ In (as_sub cp cs, starts_list cp) tests) /\
    (k = KParagraph -> In (quoted_sub, starts_quote) tests).
Proof.
  intros C IN II.
  assert (NS : forall cp cs ck cf l, class cp cs ck cf -> child_list k i ck cf -> starts_nothing k i l -> starts_list cp l = false).
  { intros cp cs ck cf l CC CL [S _]. destruct (starts_list cp l) eqn:E; [|reflexivity]. exfalso.
    apply (starts_list_spec _ _ _ _ _ CC) in E. now apply (S ck cf). }
  destruct C as [| | |q Q|].
  - exists [(quoted_sub, starts_quote); (as_sub alphabetic_point_conf alphabetic_point_subs, starts_list alphabetic_point_conf);
            (as_sub numeric_point_conf numeric_point_subs, starts_list numeric_point_conf)].
    split; [reflexivity|]. split; [repeat constructor; try (now apply quoted_good); try (now apply list_good)|].
    split; [|split].
    + repeat constructor.
      * eapply (quote_excludes _ _ _ _ 97%N); [apply class_point|reflexivity|lia].
      * eapply (quote_excludes _ _ _ _ 49%N); [apply class_numeric_point|reflexivity|lia].
      * eapply (starts_exclude _ _ _ _ _ _ _ _ 97%N 49%N); [apply class_point|apply class_numeric_point|reflexivity|reflexivity|discriminate].
    + intros l S. repeat constructor; cbn [snd].
      * destruct (starts_quote l) eqn:E; [|reflexivity]. exfalso. apply starts_quote_spec in E as (c & O & B). now apply (proj2 S eq_refl c).
      * eapply NS; [apply class_point|constructor|exact S].
      * eapply NS; [apply class_numeric_point|constructor|exact S].
    + split; [|intros _; now left]. intros ck cf CL. inversion CL; subst; [exists alphabetic_point_conf, alphabetic_point_subs|exists numeric_point_conf, numeric_point_subs];
        (split; [constructor|cbn; auto]).
  - destruct i as [i|]; [|specialize (IN eq_refl); discriminate].
    destruct (point_small i i (II i eq_refl) eq_refl) as [SI NI].
    exists [(as_sub numeric_subpoint_conf no_subs, starts_list numeric_subpoint_conf);
            (as_sub (alphabetic_subpoint_conf i) no_subs, starts_list (alphabetic_subpoint_conf i))].
    split; [reflexivity|]. split; [repeat constructor; try (now apply list_good)|]. split; [|split].
    + repeat constructor. destruct i as [|c i]; [contradiction|].
      eapply (starts_exclude _ _ _ _ _ _ _ _ 49%N c); [apply class_numeric_subpoint|now apply class_subpoint|reflexivity|reflexivity|].
      apply Forall_inv in SI. unfold small_letter in SI. lia.
    + intros l S. repeat constructor; cbn [snd].
      * eapply NS; [apply class_numeric_subpoint|constructor|exact S].
      * eapply NS; [apply (class_subpoint i SI)|constructor|exact S].
    + split; [|discriminate]. intros ck cf CL. inversion CL; subst; [exists numeric_subpoint_conf, no_subs|exists (alphabetic_subpoint_conf i), no_subs];
        (split; [now constructor|cbn; auto]).
  - exists [(as_sub (alphabetic_subpoint_conf []) no_subs, starts_list (alphabetic_subpoint_conf []))].
    split; [reflexivity|]. split; [repeat constructor; try (now apply list_good)|]. split; [|split].
    + repeat constructor.
    + intros l S. repeat constructor; cbn [snd]. eapply NS; [apply (class_subpoint []); constructor|constructor|exact S].
    + split; [|discriminate]. intros ck cf CL. inversion CL; subst. exists (alphabetic_subpoint_conf []), no_subs. split; [apply (class_subpoint []); constructor|cbn; auto].
  - exists []. split; [reflexivity|]. split; [constructor|]. split; [constructor|]. split; [constructor|]. split; [|discriminate]. intros ck cf CL. inversion CL.
  - exists []. split; [reflexivity|]. split; [constructor|]. split; [constructor|]. split; [constructor|]. split; [|discriminate]. intros ck cf CL. inversion CL.
Qed.
