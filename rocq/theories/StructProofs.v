(* The sub-article parsers give only trees that their lines write. *)
From Coq Require Import Lia.
From Coq Require Import ZifyBool ZifyNat ZifyN.
From Verif Require Import PyBase PyBaseFacts NumModel IdModel LineModel DateModel RefModel TreeModel FixupModel StructModel.
From Verif Require Import NumSpec IdSpec LineSpec TreeSpec FixupSpec StructSpec NumProofs IdProofs LineProofs TreeProofs FixupProofs StructPatterns.
Local Open Scope Z_scope.

(** * Numbering *)

Lemma remove_chr_digits d : ascii_digits d -> remove_chr 47 d = d.
Proof.
  intros D. apply remove_chr_notin. unfold ascii_digits in D. rewrite Forall_forall in D.
  intros H. apply D in H. lia.
Qed.
Lemma remove_chr_app c a b : remove_chr c (a ++ b) = remove_chr c a ++ remove_chr c b.
Proof. unfold remove_chr. apply filter_app. Qed.

Definition letter_of (l : option N) : pystr := match l with None => [] | Some c => [c] end.
Lemma numbered_digits a n l : numbered a n l ->
  exists d, ascii_digits d /\ d <> [] /\ digits_val d = n /\ remove_chr 47 a = d ++ letter_of l /\
    (forall c, l = Some c -> small_letter c).
Proof.
  intros [d D N|d c D N L|d c D N L]; exists d; (split; [assumption|split; [assumption|split; [reflexivity|split]]]); try (intros ? [= <-]; assumption); try discriminate.
  - rewrite remove_chr_digits by assumption. now rewrite app_nil_r.
  - rewrite remove_chr_app, remove_chr_digits by assumption. unfold small_letter in L.
    cbn [letter_of remove_chr List.filter]. now replace (negb (c =? 47)%N) with true by lia.
  - rewrite remove_chr_app, remove_chr_digits by assumption. unfold small_letter in L.
    cbn [letter_of remove_chr List.filter]. now replace (negb (c =? 47)%N) with true by lia.
Qed.

Lemma small_not_digit c : small_letter c -> isdigit_chr c = false.
Proof.
  intros L. assert (S : forallb (fun n => negb (isdigit_chr (N.of_nat n))) (seq 97 26) = true) by (vm_compute; reflexivity).
  rewrite forallb_forall in S. specialize (S (N.to_nat c)). rewrite N2Nat.id in S.
  unfold small_letter in L. destruct (isdigit_chr c); [|reflexivity]. 
  assert (X : negb true = true); [apply S, in_seq; lia|discriminate].
Qed.

Lemma isdigit_letter d l : ascii_digits d -> d <> [] -> (forall c, l = Some c -> small_letter c) ->
  str_isdigit (d ++ letter_of l) = match l with None => true | Some _ => false end.
Proof.
  intros D N L. destruct l as [c|]; cbn [letter_of].
  - unfold str_isdigit. destruct (d ++ [c]) eqn:E; [now destruct d|]. rewrite <- E, forallb_app. cbn [forallb].
    rewrite small_not_digit by auto. now rewrite andb_false_r.
  - rewrite app_nil_r. now apply ascii_digits_isdigit.
Qed.

Lemma numbered_next a b n l m j : numbered a n l -> numbered b m j ->
  exists r, is_next_numeric_identifier a b = Ok r /\ (r = true -> numeric_successor n l m j) /\
    (j = None -> numeric_successor n l m j -> r = true).
Proof.
  intros Ha Hb. apply numbered_digits in Ha as (d & D & N & <- & Ra & La).
  apply numbered_digits in Hb as (e & E & M & <- & Rb & Lb).
  unfold is_next_numeric_identifier. rewrite Ra, Rb, !isdigit_letter by assumption.
  destruct l as [c|], j as [c'|]; cbn [letter_of].
  - rewrite !drop_last_snoc, !last_chr_snoc. cbn [bind]. destruct (str_eqb d e) eqn:Q.
    + apply str_eqb_eq in Q. subst e. eexists. split; [reflexivity|]. split; [|discriminate].
      intros H. apply next_letter_single in H. subst c'. constructor.
    + eexists. split; [reflexivity|]. split; discriminate.
  - rewrite drop_last_snoc, !app_nil_r, !py_int_digits by assumption. cbn [bind].
    eexists. split; [reflexivity|]. split.
    + intros H. replace (digits_val e) with (digits_val d + 1)%N by lia. constructor.
    + intros _ H. inversion H; subst. lia.
  - rewrite app_nil_r. eexists. split; [reflexivity|]. split; [|discriminate].
    rewrite orb_true_iff, !str_eqb_eq. intros [H|H]; apply app_inj_tail in H as [-> ->]; constructor; auto.
  - rewrite !app_nil_r, !py_int_digits by assumption. cbn [bind].
    eexists. split; [reflexivity|]. split.
    + intros H. replace (digits_val e) with (digits_val d + 1)%N by lia. constructor.
    + intros _ H. inversion H; subst. lia.
Qed.

Lemma small_in_alphabet c : small_letter c -> In [c] list_alphabet.
Proof.
  intros L. assert (S : forallb (fun n => mem_str [N.of_nat n] list_alphabet) (seq 97 26) = true) by (vm_compute; reflexivity).
  rewrite forallb_forall in S. specialize (S (N.to_nat c)). rewrite N2Nat.id in S. apply mem_str_In, S, in_seq.
  unfold small_letter in L. lia.
Qed.

(** * The parser classes *)

Inductive known_conf : pconf -> Prop :=
| known_subpoint q : known_conf (alphabetic_subpoint_conf q)
| known_numeric_point : known_conf numeric_point_conf
| known_numeric_subpoint : known_conf numeric_subpoint_conf
| known_point : known_conf alphabetic_point_conf
| known_paragraph : known_conf paragraph_conf.

(* the identifiers that can be reached *)
Definition good_id (p : pconf) (a : pystr) : Prop :=
  match pc_kind p with
  | KAlphabeticPoint => In a list_alphabet
  | KAlphabeticSubpoint =>
      match List.length (pc_first p) with
      | 1%nat => In a list_alphabet
      | n => List.length a = n
      end
  | _ => exists n l, numbered a n l
  end.

Lemma first_good p : known_conf p -> good_id p (pc_first p).
Proof.
  intros [q| | | |]; cbn.
  - unfold good_id. cbn [pc_kind pc_first alphabetic_subpoint_conf]. destruct q as [|c q]; [now left|].
    rewrite app_length. cbn [List.length Nat.add]. rewrite Nat.add_1_r. reflexivity.
  - exists 1%N, None. apply (numbered_plain (u8 "1")); [repeat constructor; lia|discriminate].
  - exists 1%N, None. apply (numbered_plain (u8 "1")); [repeat constructor; lia|discriminate].
  - now left.
  - exists 1%N, None. apply (numbered_plain (u8 "1")); [repeat constructor; lia|discriminate].
Qed.

Lemma conf_regex p c i : known_conf p -> pc_regex p c = Some i -> exists t, c = header (pc_kind p) i ++ t.
Proof.
  intros [q| | | |]; cbn [pc_regex pc_kind alphabetic_subpoint_conf numeric_point_conf numeric_subpoint_conf alphabetic_point_conf paragraph_conf header]; intros H.
  - apply match_alphabetic_spec in H as [_ [t ->]]. exists t. now rewrite <- app_assoc.
  - apply match_numeric_spec in H as (n & l & t & _ & ->). exists t. now rewrite <- app_assoc.
  - apply match_numeric_spec in H as (n & l & t & _ & ->). exists t. now rewrite <- app_assoc.
  - apply match_alphabetic_spec in H as [_ [t ->]]. exists t. now rewrite <- app_assoc.
  - apply match_paragraph_spec in H as (n & l & t & _ & _ & ->). exists t. now rewrite <- !app_assoc.
Qed.

Lemma alphabet_digraphs : In (u8 "ny") list_alphabet /\ In (u8 "sz") list_alphabet.
Proof. split; apply mem_str_In; vm_compute; reflexivity. Qed.

Lemma next_good p a c b : known_conf p -> good_id p a -> pc_regex p c = Some b ->
  sae_is_next_identifier (pc_kind p) a b = Ok true -> follows (pc_kind p) a b /\ good_id p b.
Proof.
  intros K G R. destruct K as [q| | | |]; cbn [pc_regex pc_kind alphabetic_subpoint_conf numeric_point_conf numeric_subpoint_conf alphabetic_point_conf paragraph_conf sae_is_next_identifier] in *.
  - apply match_alphabetic_spec in R as [R _]. unfold good_id in *. cbn [pc_kind pc_first alphabetic_subpoint_conf] in *.
    rewrite app_length in *. change (List.length (u8 "a")) with 1%nat in *.
    destruct q as [|x q].
    + cbn [List.length Nat.add] in *. intros H.
      assert (B : In b list_alphabet).
      { destruct R as [(y & Y & ->)|[-> | ->]]; [now apply small_in_alphabet|apply alphabet_digraphs|apply alphabet_digraphs]. }
      split; [|exact B]. destruct a as [|a0 [|a1 [|a2 a]]]; try discriminate.
      * injection H as H. apply follows_letter; [right; auto|]. apply (letters_both list_alphabet); auto.
      * exfalso. destruct b as [|b0 b]; [discriminate|]. cbn [chr_at nth_error bind] in H.
        destruct (str_eqb [a0] [b0]) eqn:E; [|discriminate]. apply str_eqb_eq in E. injection E as ->.
        destruct b as [|b1 b]; [discriminate|]. cbn [chr_at nth_error bind] in H. injection H as H.
        apply next_letter_single in H. subst b1.
        assert (A : a1 = 121%N \/ a1 = 122%N).
        { assert (S : forallb (fun s => match s with [_; y] => (y =? 121)%N || (y =? 122)%N | _ => true end) list_alphabet = true) by (vm_compute; reflexivity).
          rewrite forallb_forall in S. specialize (S _ G). cbn in S. lia. }
        assert (S : forallb (fun s => match s with _ :: y :: _ => (y =? 121)%N || ((y =? 122)%N && str_eqb s (u8 "sz")) | _ => true end) list_alphabet = true) by (vm_compute; reflexivity).
        rewrite forallb_forall in S. specialize (S _ B). cbn [Nat.add] in S. rewrite orb_true_iff, andb_true_iff in S.
        assert (Z : a1 = 121%N) by lia. subst a1. destruct S as [S|[_ S]]; [lia|].
        apply str_eqb_eq in S. injection S as -> ->.
        assert (S' : forallb (fun s => negb (str_eqb s [115%N; 121%N])) list_alphabet = true) by (vm_compute; reflexivity).
        rewrite forallb_forall in S'. specialize (S' _ G). now rewrite str_eqb_refl in S'.
    + cbn [List.length Nat.add] in *. rewrite Nat.add_1_r in *. cbn [Nat.add] in *.
      destruct a as [|a0 [|a1 [|a2 a]]]; try discriminate.
      cbn [List.length] in G. assert (Q : q = []) by (destruct q; [reflexivity|cbn in G; lia]). subst q. cbn [List.length].
      intros H. destruct b as [|b0 b]; [discriminate|]. cbn [chr_at nth_error bind] in H.
      destruct (str_eqb [a0] [b0]) eqn:E; [|discriminate]. apply str_eqb_eq in E. injection E as <-.
      destruct b as [|b1 b]; [discriminate|]. cbn [chr_at nth_error bind] in H. injection H as H.
      apply next_letter_single in H. subst b1. 
      assert (B : b = [] /\ small_letter (a1 + 1)).
      { destruct R as [(y & Y & R)|[R|R]].
        - injection R as -> <- ->. auto.
        - injection R as -> -> ->. split; [reflexivity|unfold small_letter; lia].
        - injection R as -> -> ->. split; [reflexivity|unfold small_letter; lia]. }
      destruct B as [-> B]. split; [now constructor|reflexivity].
  - apply match_numeric_spec in R as (m & j & t & M & _). destruct G as (n & l & G). intros H.
    destruct (numbered_next a b n l m j G M) as (r & E & F & _). split; [|exists m, j; exact M].
    eapply follows_number; eauto; [right; left; reflexivity|]. apply F. congruence.
  - apply match_numeric_spec in R as (m & j & t & M & _). destruct G as (n & l & G). intros H.
    destruct (numbered_next a b n l m j G M) as (r & E & F & _). split; [|exists m, j; exact M].
    eapply follows_number; eauto; [right; right; reflexivity|]. apply F. congruence.
  - intros [= H]. apply match_alphabetic_spec in R as [R _].
    assert (B : In b list_alphabet).
    { destruct R as [(y & Y & ->)|[-> | ->]]; [now apply small_in_alphabet|apply alphabet_digraphs|apply alphabet_digraphs]. }
    split; [|exact B]. apply follows_letter; [now left|]. apply (letters_both list_alphabet); auto.
  - apply match_paragraph_spec in R as (m & j & t & M & _). destruct G as (n & l & G). intros H.
    destruct (numbered_next a b n l m j G M) as (r & E & F & _). split; [|exists m, j; exact M].
    eapply follows_number; eauto; [left; reflexivity|]. apply F. congruence.
Qed.

(** * Slices of lines *)

Lemma single_end_cases l : single_end l -> blank l \/ exists a p, l_parts l = a ++ [p] /\ List.length (p_content p) = 1%nat.
Proof.
  unfold single_end, blank. intros H. destruct (rev (l_parts l)) as [|p r] eqn:E.
  - left. rewrite <- (rev_involutive (l_parts l)), E. reflexivity.
  - right. exists (rev r), p. split; [|exact H]. rewrite <- (rev_involutive (l_parts l)), E. reflexivity.
Qed.
Lemma single_end_snoc l a p : l_parts l = a ++ [p] -> List.length (p_content p) = 1%nat -> single_end l.
Proof. intros E H. unfold single_end. now rewrite E, rev_app_distr. Qed.
Lemma single_end_suffix l a b r : single_end l -> l_parts l = a ++ b -> l_parts r = b -> single_end r.
Proof.
  unfold single_end. intros H E ->. rewrite E, rev_app_distr in H. destruct (rev b); [exact I|exact H].
Qed.

Lemma text_len_one a p : List.length (p_content p) = 1%nat -> text_len (a ++ [p]) = text_len a + 1.
Proof. intros H. rewrite text_len_app. unfold text_len at 2. cbn. rewrite app_nil_r, H. lia. Qed.

Lemma slice_exact l s e r : single_end l -> l_slice l s e = Ok r ->
  let n := Z.of_nat (List.length (l_content l)) in
  l_content r = substring (l_content l) (from_end n s) (from_end n (the_end l e)).
Proof.
  intros S H n. destruct (slice_content _ _ _ _ H) as [C|(_ & before & x & P & L)]; [exact C|exfalso].
  destruct (single_end_cases l S) as [B|(a & p & P' & L')]; [unfold blank in B; rewrite B in P; now destruct before|].
  rewrite P' in P. apply app_inj_tail in P as [-> ->].
  assert (E : Z.of_nat (List.length (l_content l)) = text_len before + 1).
  { unfold l_content. rewrite P'. rewrite <- (text_len_one before x L'). reflexivity. }
  fold n in L, E. rewrite E in L. lia.
Qed.

Lemma slice_drop l k r : single_end l -> l_slice l (Z.of_nat k) None = Ok r ->
  l_content r = skipn k (l_content l).
Proof.
  intros S H. rewrite (slice_exact _ _ _ _ S H). cbn [the_end]. unfold from_end.
  destruct (Z.ltb_spec (Z.of_nat k) 0); [lia|]. destruct (Z.ltb_spec (Z.of_nat (List.length (l_content l))) 0); [lia|].
  unfold substring. rewrite !Nat2Z.id. apply firstn_all2. rewrite skipn_length. lia.
Qed.

Lemma slice_single l k r : single_end l -> l_slice l (Z.of_nat k) None = Ok r -> single_end r.
Proof.
  intros S H. pose proof (slice_cases l (Z.of_nat k) None) as C. cbv zeta in C. cbn [the_end] in C.
  unfold from_end in C. destruct (Z.ltb_spec (Z.of_nat k) 0); [lia|].
  destruct (Z.ltb_spec (Z.of_nat (List.length (l_content l))) 0); [lia|].
  destruct C as [(_ & _ & E)|[(_ & _ & E)|(_ & a & b & P & C)]]; [congruence|now replace r with EMPTY_LINE by congruence|].
  destruct C as [(_ & _ & E & _)|[(_ & _ & E)|[(_ & _ & E & _)|[(T & p & x & c & -> & L & E)|(_ & _ & E & _)]]]]; try congruence;
    try (now replace r with EMPTY_LINE by congruence).
  assert (N : text_len c = 0).
  { assert (N : Z.of_nat (List.length (l_content l)) = text_len a + text_len (p :: x) + text_len c).
    { unfold l_content. rewrite P. transitivity (text_len (a ++ (p :: x) ++ c)); [reflexivity|].
      rewrite !text_len_app. lia. }
    lia. }
  assert (c = []).
  { destruct c as [|q c] using rev_ind; [reflexivity|]. exfalso. 
    unfold single_end in S. rewrite P, !app_assoc, rev_app_distr in S. cbn in S.
    rewrite text_len_one in N by assumption. unfold text_len in N. lia. }
  subst c. rewrite app_nil_r in *. assert (R : l_parts r = (if f_truthy (end_of f_zero a)
     then {| p_dx := f_add (p_dx p) (end_of f_zero a); p_content := p_content p; p_bold := p_bold p |} else p) :: x) by (rewrite H in E; now injection E as ->).
  unfold single_end in *. rewrite P, rev_app_distr in S. rewrite R. cbn [rev] in *.
  destruct (rev x) as [|y z]; cbn [app] in *; [|exact S]. destruct (f_truthy _); exact S.
Qed.

Lemma startswith_split p s : startswith p s = true -> s = p ++ skipn (List.length p) s.
Proof.
  intros H. apply startswith_spec in H as [t ->]. now rewrite skipn_app, skipn_all, Nat.sub_diag.
Qed.

(** * Lists of lines *)

Lemma filter_picks (ls : list line) : without_blanks ls (List.filter not_empty_line ls).
Proof.
  unfold without_blanks. induction ls as [|l ls IH]; [constructor|]. cbn [List.filter].
  unfold not_empty_line, is_empty_line at 1. destruct (l_parts l) eqn:E; cbn [negb].
  - apply picks_drop; [|exact IH]. unfold blank. intuition.
  - apply picks_keep; [|exact IH]. unfold blank. congruence.
Qed.
Lemma joined_lines_text ls : text_in ls (joined_lines ls).
Proof. exists (List.filter not_empty_line ls). split; [apply filter_picks|apply join_joined]. Qed.

Lemma open_after_app a b : open_after (a ++ b) = open_after a + open_after b.
Proof.
  unfold open_after, whole_text. rewrite flat_map_app, opening_app, closing_app. lia.
Qed.
Lemma firstn_le_app {A} a b (l : list A) : (a <= b)%nat -> firstn b l = firstn a l ++ slice_nat a b l.
Proof.
  intros H. unfold slice_nat. rewrite <- (firstn_skipn a (firstn b l)). rewrite firstn_firstn, skipn_firstn_comm.
  now replace (Nat.min a b) with a by lia.
Qed.
Lemma skipn_skipn' {A} a b (l : list A) : skipn a (skipn b l) = skipn (b + a) l.
Proof. revert l. induction b as [|b IH]; intros l; [reflexivity|]. destruct l; [now rewrite !skipn_nil|]. apply IH. Qed.
Lemma skipn_slice {A} a b (l : list A) : (a <= b)%nat -> skipn a l = slice_nat a b l ++ skipn b l.
Proof.
  intros H. unfold slice_nat. rewrite <- (firstn_skipn (b - a) (skipn a l)) at 1. rewrite skipn_skipn'.
  now replace (a + (b - a))%nat with b by lia.
Qed.
Lemma skipn_nth {A} n (l : list A) x : nth_error l n = Some x -> skipn n l = x :: skipn (S n) l.
Proof.
  revert l. induction n as [|n IH]; intros [|y l] H; try discriminate; cbn in *; [congruence|]. now rewrite (IH _ H).
Qed.
Lemma slice_nat_head {A} a b (l : list A) x : (a < b)%nat -> nth_error l a = Some x -> exists t, slice_nat a b l = x :: t.
Proof.
  intros L H. unfold slice_nat. rewrite (skipn_nth _ _ _ H). destruct (b - a)%nat eqn:E; [lia|]. cbn. eauto.
Qed.
Lemma Forall_skipn' {A} (P : A -> Prop) n l : Forall P l -> Forall P (skipn n l).
Proof. intros H. rewrite <- (firstn_skipn n l) in H. now apply Forall_app in H. Qed.
Lemma Forall_firstn' {A} (P : A -> Prop) n l : Forall P l -> Forall P (firstn n l).
Proof. intros H. rewrite <- (firstn_skipn n l) in H. now apply Forall_app in H. Qed.
Lemma Forall_slice {A} (P : A -> Prop) a b l : Forall P l -> Forall P (slice_nat a b l).
Proof. intros H. unfold slice_nat. now apply Forall_firstn', Forall_skipn'. Qed.

(** * Where the headers are *)

(* the line stands clearly deeper *)
Definition deeper (from : pyfloat) (l : line) : Prop :=
  similar_indent from (l_indent l) = false /\ f_ltb from (l_indent l) = true.
(* line number k has the header that is expected after [last] *)
Definition candidate (p : pconf) (last : option (pystr * pyfloat)) (lines : list line) (k : nat) (l : line) (i : pystr) : Prop :=
  nth_error lines k = Some l /\ open_after (firstn k lines) = 0 /\ extract_identifier p l = Some i /\
  match last with
  | None => i = pc_first p
  | Some (a, x) => ~ deeper x l /\ sae_is_next_identifier (pc_kind p) a i = Ok true
  end.
(* the first one, then the first that follows that, and so on *)
Inductive hchain (p : pconf) (lines : list line) (complete : Prop) : option (pystr * pyfloat) -> nat -> list nat -> Prop :=
| hchain_end last lo : (complete -> forall k l i, (lo <= k)%nat -> ~ candidate p last lines k l i) -> hchain p lines complete last lo []
| hchain_next last lo h l i hs : (lo <= h)%nat -> candidate p last lines h l i ->
    (forall k l' j, (lo <= k < h)%nat -> ~ candidate p last lines k l' j) ->
    hchain p lines complete (Some (i, l_indent l)) (S h) hs -> hchain p lines complete last lo (h :: hs).

Lemma hchain_skip p lines complete last lo hs :
  (forall l i, ~ candidate p last lines lo l i) -> hchain p lines complete last (S lo) hs -> hchain p lines complete last lo hs.
Proof.
  intros N H. inversion H as [? ? E|? ? h l i ? L C M T]; subst.
  - constructor. intros X k l i K. destruct (Nat.eq_dec k lo) as [->|]; [apply N|]. apply E; [exact X|lia].
  - econstructor; eauto; [lia|]. intros k l' j K. destruct (Nat.eq_dec k lo) as [->|]; [apply N|]. apply M. lia.
Qed.

Lemma find_header_chain p lines (complete : Prop) : forall items n last end_,
  (forall k q l, nth_error items k = Some (q, l) -> nth_error lines (n + k) = Some l /\ q = open_after (firstn (n + k) lines)) ->
  (complete -> g_end (find_header_loop p (pc_first p) n items last end_) = None) ->
  (end_ = None -> (n + List.length items = List.length lines)%nat) ->
  hchain p lines complete last n (g_items (find_header_loop p (pc_first p) n items last end_)).
Proof.
  induction items as [|[q l] items IH]; intros n last end_ I E L.
  - cbn in *. constructor. intros X k l i K (N & _). specialize (L (E X)).
    assert (nth_error lines k = None) by (apply nth_error_None; lia). congruence.
  - destruct (I O q l eq_refl) as [N0 Q0]. rewrite Nat.add_0_r in N0, Q0.
    assert (I' : forall k q l, nth_error items k = Some (q, l) -> nth_error lines (S n + k) = Some l /\ q = open_after (firstn (S n + k) lines)).
    { intros k q' l' H. specialize (I (S k) q' l' H). now rewrite Nat.add_succ_r in I. }
    assert (L' : end_ = None -> (S n + List.length items = List.length lines)%nat).
    { intros X. specialize (L X). cbn in L. lia. }
    assert (skip : (complete -> g_end (find_header_loop p (pc_first p) (S n) items last end_) = None) ->
       (forall l i, ~ candidate p last lines n l i) ->
       hchain p lines complete last n (g_items (find_header_loop p (pc_first p) (S n) items last end_))).
    { intros E' X. apply hchain_skip; [exact X|]. apply IH; auto. }
    cbn [find_header_loop] in *. destruct (negb (q =? 0)) eqn:Q.
    { apply skip; [exact E|]. intros ? ? (_ & Z & _). lia. }
    destruct (match last with
              | Some (_, indent) => negb (similar_indent indent (l_indent l)) && f_ltb indent (l_indent l)
              | None => false
              end) eqn:D.
    { apply skip; [exact E|]. intros l' i (Y & _ & _ & Z). assert (l' = l) by congruence. subst l'.
      destruct last as [[a x]|]; [|discriminate]. destruct Z as [Z _]. apply Z. unfold deeper.
      destruct (similar_indent x (l_indent l)), (f_ltb x (l_indent l)); split; auto; discriminate. }
    destruct (extract_identifier p l) as [i|] eqn:X.
    2:{ apply skip; [exact E|]. intros l' i (Y & _ & Z & _). congruence. }
    destruct (match last with
              | Some (last_i, _) => sae_is_next_identifier (pc_kind p) last_i i
              | None => Ok (str_eqb i (pc_first p))
              end) as [[]|e] eqn:F.
    + cbn [g_items g_end] in *. apply (hchain_next p lines complete last n n l i); [lia| | |apply IH; auto].
      * split; [exact N0|]. split; [lia|]. split; [exact X|].
        destruct last as [[a x]|].
        -- split; [|exact F]. intros [Y Z]. rewrite Y, Z in D. discriminate.
        -- injection F as F. now apply str_eqb_eq.
      * intros. lia.
    + apply skip; [exact E|]. intros l' j (Y & _ & Z & W). assert (l' = l) by congruence. subst l'.
      assert (j = i) by congruence. subst j. destruct last as [[a x]|]; [destruct W; congruence|].
      subst i. rewrite str_eqb_refl in F. discriminate.
    + cbn. constructor. intros C. specialize (E C). discriminate.
Qed.

Lemma find_header_lines_chain p lines :
  hchain p lines (g_end (find_header_lines p lines) = None) None 0 (g_items (find_header_lines p lines)).
Proof.
  unfold find_header_lines. apply find_header_chain.
  - intros k q l H. cbn [Nat.add]. apply (quote_levels true). exact H.
  - auto.
  - intros H. cbn [Nat.add]. destruct (quote_yield_count lines) as [E|(_ & _ & E)]; [exact E|congruence].
Qed.

Lemma find_first_candidate p lines n : find_first_header p lines = Ok (Some n) ->
  (n < List.length lines)%nat /\ open_after (firstn n lines) = 0.
Proof.
  unfold find_first_header, gen_first. pose proof (find_header_lines_chain p lines) as C.
  destruct (g_items (find_header_lines p lines)) as [|h hs]; [destruct (g_end _); discriminate|].
  intros [= <-]. inversion C as [|? ? ? l i ? L (N & O & _) M T]; subst.
  split; [|exact O]. apply nth_error_Some. congruence.
Qed.

(** * Splitting off the wrap-up *)

Lemma wrapup_indent_split limit : forall ls before a b,
  wrapup_by_indent limit before ls = Some (a, b) -> exists k, a = before ++ k /\ ls = k ++ b /\ b <> [].
Proof.
  induction ls as [|l ls IH]; intros before a b H; [discriminate|]. cbn [wrapup_by_indent] in H.
  destruct (f_ltb (l_indent l) limit).
  - injection H as <- <-. exists []. rewrite app_nil_r. repeat split. discriminate.
  - apply IH in H as (k & -> & -> & N). exists (l :: k). rewrite <- app_assoc. auto.
Qed.
Lemma wrapup_margin_split : forall before after a b,
  wrapup_by_margin before after = Some (a, b) -> after <> [] -> rev before ++ after = a ++ b /\ a <> [] /\ b <> [].
Proof.
  induction before as [|l before IH]; intros after a b H N; [discriminate|]. cbn [wrapup_by_margin] in H.
  destruct (f_ltb _ _).
  - injection H as <- <-. split; [reflexivity|]. split; [|exact N]. cbn. now destruct (rev before).
  - apply IH in H as (E & A & B); [|discriminate]. split; [|auto]. cbn. now rewrite <- app_assoc.
Qed.

Lemma wrapup_kinds p : known_conf p ->
  if pc_can_have_wrapup p then pc_kind p <> KParagraph /\ pc_kind p <> KNumericSubpoint
  else pc_kind p = KParagraph \/ pc_kind p = KNumericSubpoint.
Proof. intros [q| | | |]; cbn; auto; split; discriminate. Qed.

Lemma filter_head l ls : ~ blank l -> List.filter not_empty_line (l :: ls) = l :: List.filter not_empty_line ls.
Proof. unfold blank, not_empty_line, is_empty_line. intros H. cbn. now destruct (l_parts l). Qed.

Lemma split_last_sound p l ls pi rem w : known_conf p -> ~ blank l ->
  split_last_item_and_wrapup p (l :: ls) pi = Ok (rem, w) ->
  last_lines (pc_kind p) (l :: ls) rem w /\ (exists t, rem = l :: t) /\ incl rem (l :: ls).
Proof.
  intros K B H. unfold split_last_item_and_wrapup in H. pose proof (wrapup_kinds p K) as W.
  destruct (pc_can_have_wrapup p); cbn [negb] in H.
  2:{ injection H as <- <-. split; [now apply last_all|]. split; [eauto|apply incl_refl]. }
  rewrite (filter_head _ _ B) in H. pose proof (filter_picks (l :: ls)) as F. rewrite (filter_head _ _ B) in F.
  assert (I : incl (l :: List.filter not_empty_line ls) (l :: ls)).
  { intros x [<-|X]; [now left|]. right. now apply filter_In in X. }
  set (fs := l :: List.filter not_empty_line ls) in *.
  assert (some : forall a b, fs = a ++ b -> a <> [] -> b <> [] ->
     last_lines (pc_kind p) (l :: ls) a (Some (join_line_strs (map l_content b))) /\ (exists t, a = l :: t) /\ incl a (l :: ls)).
  { intros a b E A NB. split; [|split].
    - destruct W. eapply last_wrap_up with (wrap := b); auto; [now rewrite <- E|apply join_joined].
    - unfold fs in E. destruct a as [|x a]; [contradiction|]. injection E as <- _. eauto.
    - intros x X. apply I. rewrite E. apply in_or_app. auto. }
  assert (none : last_lines (pc_kind p) (l :: ls) fs None /\ (exists t, fs = l :: t) /\ incl fs (l :: ls)).
  { split; [now apply last_no_wrap_up|]. split; [|exact I]. unfold fs. eauto. }
  destruct pi.
  - unfold fs in H at 1. destruct (wrapup_by_indent _ _ _) as [[a b]|] eqn:E; injection H as <- <-; [|exact none].
    apply wrapup_indent_split in E as (k & -> & E & N). apply some; [|discriminate|exact N].
    unfold fs. now rewrite E.
  - destruct (rev fs) as [|x r] eqn:R; [injection H as <- <-; exact none|].
    destruct (wrapup_by_margin _ _) as [[a b]|] eqn:E; injection H as <- <-; [|exact none].
    apply wrapup_margin_split in E as (E & A & NB); [|discriminate]. apply some; auto.
    rewrite <- E, <- (rev_involutive fs), R. reflexivity.
Qed.

(** * Elements and lists of elements *)

Definition sub_sound (k : sae_kind) (i : option pystr) (s : sub_parser) : Prop :=
  sp_must_have_intro s = true /\
  (forall ls n, sp_first_header s ls = Ok (Some n) -> (n < List.length ls)%nat /\ open_after (firstn n ls) = 0) /\
  (forall ls pi cs w, Forall single_end ls -> sp_extract s ls pi = Ok (cs, w) -> parts k i ls cs w).
Definition subs_sound (k : sae_kind) (subs_of : option pystr -> res (list sub_parser)) : Prop :=
  forall i subs, subs_of i = Ok subs -> Forall (sub_sound k i) subs.

Lemma first_headers_in lines (P : nat * sub_parser -> Prop) : forall subs hs, first_headers subs lines = Ok hs ->
  Forall (fun s => sp_must_have_intro s = true /\ forall n, sp_first_header s lines = Ok (Some n) -> n <> O -> P (n, s)) subs ->
  Forall P hs.
Proof.
  induction subs as [|s subs IH]; intros hs H F; cbn [first_headers] in H; [injection H as <-; constructor|].
  inversion F as [|? ? [S1 S2] F']; subst.
  apply bind_ok in H as (h & H1 & H). apply bind_ok in H as (r & H2 & H). specialize (IH _ H2 F').
  destruct h as [n|]; injection H as <-; [|exact IH]. rewrite S1.
  destruct (Nat.eqb_spec n 0); cbn [andb]; [exact IH|]. constructor; [now apply S2|exact IH].
Qed.
Lemma insert_header_in (P : nat * sub_parser -> Prop) x : forall l r, insert_header x l = Ok r -> P x -> Forall P l -> Forall P r.
Proof.
  induction l as [|y l IH]; intros r H X F; cbn [insert_header] in H; [injection H as <-; auto|].
  inversion F; subst. destruct (Nat.eqb _ _); [discriminate|]. destruct (Nat.ltb _ _); [injection H as <-; auto|].
  apply bind_ok in H as (r' & H & [= <-]). constructor; eauto.
Qed.
Lemma sort_headers_in (P : nat * sub_parser -> Prop) : forall l r, sort_headers l = Ok r -> Forall P l -> Forall P r.
Proof.
  induction l as [|x l IH]; intros r H F; cbn [sort_headers] in H; [injection H as <-; constructor|].
  inversion F; subst. apply bind_ok in H as (r' & H & H'). eapply insert_header_in; eauto.
Qed.
Lemma try_headers_ok lines pi : forall hs r, try_headers hs lines pi = Ok r ->
  exists n s cs w, In (n, s) hs /\ sp_extract s (skipn n lines) pi = Ok (cs, w) /\
    r = (match n with O => None | _ => Some (joined_lines (firstn n lines)) end, cs, w).
Proof.
  induction hs as [|[n s] hs IH]; intros r H; cbn [try_headers] in H; [discriminate|].
  destruct (sp_extract s (skipn n lines) pi) as [[cs w]|e] eqn:E.
  - injection H as <-. exists n, s, cs, w. cbn. auto.
  - destruct e; try discriminate. apply IH in H as (n' & s' & cs & w & I & H). exists n', s', cs, w. cbn. auto.
Qed.

Lemma children_sound k i subs lines pi intro cs w :
  Forall (sub_sound k i) subs -> Forall single_end lines ->
  parse_children_and_wrapup subs lines pi = Ok (intro, cs, w) ->
  exists a b, lines = a ++ b /\ a <> [] /\ intro = Some (joined_lines a) /\ open_after a = 0 /\ parts k i b cs w.
Proof.
  intros S SE H. unfold parse_children_and_wrapup in H. apply bind_ok in H as (hs & H1 & H).
  apply bind_ok in H as (hs' & H2 & H).
  set (P := fun x : nat * sub_parser => (0 < fst x < List.length lines)%nat /\ open_after (firstn (fst x) lines) = 0 /\
     forall ls pi cs w, Forall single_end ls -> sp_extract (snd x) ls pi = Ok (cs, w) -> parts k i ls cs w).
  assert (F : Forall P hs').
  { eapply sort_headers_in; [exact H2|]. eapply first_headers_in; [exact H1|].
    eapply Forall_impl; [|exact S]. intros s (S1 & S2 & S3). split; [exact S1|]. intros n N Z. apply S2 in N as [N1 N2].
    unfold P; cbn. split; [lia|]. auto. }
  apply try_headers_ok in H as (n & s & cs' & w' & I & E & [= -> -> ->]).
  rewrite Forall_forall in F. destruct (F _ I) as (N & O & X). cbn [fst snd] in *.
  exists (firstn n lines), (skipn n lines). split; [now rewrite firstn_skipn|]. split.
  { destruct lines; [cbn in N; lia|]. destruct n; [lia|]. discriminate. }
  split; [destruct n; [lia|reflexivity]|]. split; [exact O|]. eapply X; eauto. now apply Forall_skipn'.
Qed.

Lemma sae_parse_sound p subs_of l0 ls pi s :
  known_conf p -> subs_sound (pc_kind p) subs_of -> Forall single_end (l0 :: ls) ->
  (p = paragraph_conf \/ extract_identifier p l0 <> None) ->
  sae_parse p subs_of (l0 :: ls) pi = Ok s ->
  element (pc_kind p) (l0 :: ls) s /\ s_identifier s = extract_identifier p l0.
Proof.
  intros K SS SE ID H. cbn [sae_parse] in H. apply bind_ok in H as (prefix & HP & H).
  apply bind_ok in H as (u & HA & H). apply bind_ok in H as (l1 & HS & H).
  assert (A : startswith prefix (l_content l0) = true) by (destruct (startswith _ _); [reflexivity|discriminate]).
  clear HA. apply startswith_split in A.
  inversion SE as [|? ? S0 S1]; subst.
  pose proof (slice_drop _ _ _ S0 HS) as C. rewrite <- C in A.
  assert (HD : headed (pc_kind p) (extract_identifier p l0) l0 l1).
  { destruct (extract_identifier p l0) as [i|] eqn:X.
    - cbn. rewrite A. f_equal. destruct K as [q| | | |]; cbn in *; now injection HP as <-.
    - destruct ID as [->|ID]; [|contradiction]. cbn in *. injection HP as <-. split; [reflexivity|exact A]. }
  assert (SE1 : Forall single_end (l1 :: ls)) by (constructor; [eapply slice_single; eauto|exact S1]).
  destruct (subs <- subs_of (extract_identifier p l0) ;; parse_children_and_wrapup subs (l1 :: ls) pi) as [[[intro cs] w]|e] eqn:R.
  - apply bind_ok in R as (subs & R1 & R2). apply SS in R1.
    apply (children_sound _ _ _ _ _ _ _ _ R1 SE1) in R2 as (a & b & E & N & -> & O & P).
    apply new_sae_ok in H as [-> _]. split; [|reflexivity].
    eapply element_parts; eauto. apply joined_lines_text.
  - destruct e; try discriminate. apply new_sae_ok in H as [-> _]. split; [|reflexivity].
    eapply element_text; eauto. apply joined_lines_text.
Qed.

Lemma extract_not_blank p l i : known_conf p -> extract_identifier p l = Some i -> ~ blank l.
Proof.
  intros K H B. apply conf_regex in H as [t H]; [|exact K]. unfold l_content in H. unfold blank in B. rewrite B in H.
  symmetry in H. apply app_eq_nil in H as [H _]. destruct K as [q| | | |]; cbn in H; try discriminate;
    apply app_eq_nil in H as [_ H]; discriminate.
Qed.

Lemma items_sound p subs_of lines pi : known_conf p -> subs_sound (pc_kind p) subs_of -> Forall single_end lines ->
  forall C hs h l i, hchain p lines C (Some (i, l_indent l)) (S h) hs ->
  nth_error lines h = Some l -> open_after (firstn h lines) = 0 -> extract_identifier p l = Some i -> good_id p i ->
  forall es rem w e,
  parse_items (fun ls => sae_parse p subs_of ls pi) lines (h :: hs) = Ok es ->
  split_last_item_and_wrapup p (skipn (last (h :: hs) O) lines) pi = Ok (rem, w) ->
  sae_parse p subs_of rem pi = Ok e ->
  elements (pc_kind p) i (skipn h lines) (es ++ [e]) w.
Proof.
  intros K SS SE C. induction hs as [|h' hs IH]; intros h l i HC N O X G es rem w e HI HW HE.
  - cbn in HI. injection HI as <-. cbn [last app] in *. rewrite (skipn_nth _ _ _ N) in *.
    destruct (split_last_sound _ _ _ _ _ _ K (extract_not_blank _ _ _ K X) HW) as (L & (t & ->) & I).
    assert (SE' : Forall single_end (l :: t)).
    { rewrite Forall_forall in *. intros x Hx. apply I in Hx. apply SE.
      rewrite <- (firstn_skipn h lines), (skipn_nth _ _ _ N). apply in_or_app. auto. }
    destruct (sae_parse_sound _ _ _ _ _ _ K SS SE' ltac:(right; congruence) HE) as [E J].
    eapply elements_last; [exact L|exact E|congruence].
  - inversion HC as [|? ? ? l' i' ? LE CA M T]; subst. destruct CA as (N' & O' & X' & D' & F').
    cbn [parse_items] in HI. apply bind_ok in HI as (e0 & H0 & HI). apply bind_ok in HI as (es' & H1 & [= <-]).
    destruct (next_good _ _ _ _ K G X' F') as [FO G'].
    change (last (h :: h' :: hs) 0%nat) with (last (h' :: hs) 0%nat) in HW.
    specialize (IH _ _ _ T N' O' X' G' _ _ _ _ H1 HW HE).
    rewrite (skipn_slice h h') by lia. cbn [app].
    destruct (slice_nat_head h h' lines l) as [t ET]; [lia|exact N|].
    pose proof (Forall_slice _ h h' _ SE) as SE'. rewrite ET in SE', H0.
    destruct (sae_parse_sound _ _ _ _ _ _ K SS SE' ltac:(right; congruence) H0) as [E J].
    apply elements_more with (j := i').
    + now rewrite ET.
    + congruence.
    + pose proof (firstn_le_app h h' lines ltac:(lia)) as FA. apply (f_equal open_after) in FA.
      rewrite open_after_app in FA. lia.
    + exact FO.
    + exact IH.
Qed.

Lemma extract_multiple_sound p subs_of lines pi es w :
  known_conf p -> subs_sound (pc_kind p) subs_of -> Forall single_end lines ->
  extract_multiple p subs_of lines pi = Ok (es, w) ->
  elements (pc_kind p) (pc_first p) lines es w /\
  (pc_must_have_multiple p = true -> (2 <= List.length es)%nat).
Proof.
  intros K SS SE H. unfold extract_multiple in H. apply bind_ok in H as (hs & HH & H).
  pose proof (find_header_lines_chain p lines) as C. unfold gen_all in HH.
  destruct (g_end (find_header_lines p lines)); [discriminate|]. injection HH as HH. rewrite HH in C. clear HH.
  destruct hs as [|h hs]; [discriminate|]. apply bind_ok in H as (u & HZ & H).
  destruct lines as [|l0 lines]; [discriminate|]. apply bind_ok in H as (u' & HF & H).
  destruct (Nat.ltb (List.length (h :: hs)) 2 && pc_must_have_multiple p) eqn:M; [discriminate|].
  apply bind_ok in H as (es' & H1 & H). apply bind_ok in H as ([rem w'] & H2 & H).
  apply bind_ok in H as (e & H3 & [= <- <-]).
  assert (h = O) by (destruct (Nat.eqb_spec h 0); [assumption|discriminate]). subst h.
  inversion C as [|? ? ? l i ? L CA _ T]; subst. destruct CA as (N & O & X & F). cbv iota in F. subst i.
  split.
  - change (l0 :: lines) with (skipn 0 (l0 :: lines)).
    eapply items_sound; eauto using first_good.
  - intros MM. rewrite MM, andb_true_r in M. apply Nat.ltb_ge in M. rewrite app_length.
    assert (E : List.length es' = List.length hs).
    { clear - H1. revert H1. generalize (0%nat) as h. revert es'. induction hs as [|h' hs IH]; intros es h H; cbn in H; [now injection H as <-|].
      apply bind_ok in H as (? & _ & H). apply bind_ok in H as (? & H & [= <-]). cbn. f_equal. eapply IH, H. }
    cbn [List.length] in *. lia.
Qed.

(** * Quoted blocks *)

Lemma not_empty_spec l : is_empty_line l = true <-> blank l.
Proof. unfold is_empty_line, blank. destruct (l_parts l); split; congruence. Qed.

Lemma open_quote_spec c : is_open_quote c = true <-> opens c.
Proof. unfold is_open_quote, opens. rewrite orb_true_iff, !N.eqb_eq. reflexivity. Qed.

Lemma last_chr_ends l c : last_chr (l_content l) = Ok c -> exists t, l_content l = t ++ [c].
Proof.
  intros H. destruct (l_content l) as [|x s] using rev_ind; [discriminate|]. rewrite last_chr_snoc in H.
  injection H as <-. eauto.
Qed.
Lemma ends_quote_last l c : last_chr (l_content l) = Ok c -> ends_quote l <-> c = 8221%N.
Proof.
  intros H. apply last_chr_ends in H as [t E]. unfold ends_quote. rewrite E. split.
  - intros [u U]. now apply app_inj_tail in U.
  - intros ->. eauto.
Qed.

Lemma substring_inner c (m : pystr) d :
  substring (c :: m ++ [d]) 1 (Z.of_nat (List.length (c :: m ++ [d])) + -1) = m.
Proof.
  unfold substring. cbn [List.length]. rewrite app_length. cbn [List.length].
  replace (Z.to_nat (Z.of_nat (S (List.length m + 1)) + -1) - Z.to_nat 1)%nat with (List.length m) by lia.
  change (Z.to_nat 1) with 1%nat. cbn [skipn]. now rewrite firstn_app, firstn_all, Nat.sub_diag, app_nil_r.
Qed.

Lemma open_block_sound l blocks st blocks' c : single_end l -> first_chr (l_content l) = Ok c -> opens c ->
  open_block l blocks = Ok (st, blocks') ->
  (exists l', st = QWrapUpMaybe /\ blocks' = blocks ++ [[l']] /\ quoted_block_in [l] [l']) \/
  (exists l', st = QBlock [l'] /\ blocks' = blocks /\ l_content l = c :: l_content l' /\ ~ ends_quote l).
Proof.
  intros S F O H. unfold open_block in H. apply bind_ok in H as (e & HE & H).
  pose proof (ends_quote_last _ _ HE) as EQ. apply last_chr_ends in HE as [t T].
  destruct (l_content l) as [|c' s] eqn:CL; [discriminate|]. injection F as ->.
  destruct (N.eqb_spec e 8221) as [->|NE].
  - apply bind_ok in H as (q & HS & [= <- <-]). left. exists q. split; [reflexivity|]. split; [reflexivity|].
    pose proof (slice_exact _ _ _ _ S HS) as C. cbv zeta in C. cbn [the_end] in C. rewrite CL in C.
    destruct t as [|c' m]; [injection T as -> ->; destruct O; discriminate|]. injection T as -> ->.
    rewrite from_end_nonneg, from_end_neg in C by lia. rewrite substring_inner in C.
    apply (block_line l q c'); [exact O|]. now rewrite CL, C.
  - apply bind_ok in H as (q & HS & [= <- <-]). right. exists q. split; [reflexivity|]. split; [reflexivity|].
    apply (slice_drop l 1) in HS; [|exact S]. rewrite CL in HS. cbn in HS. rewrite HS. split; [reflexivity|].
    intros X. apply EQ in X. contradiction.
Qed.

(* what is read from a state on, for lines at whose start q quotes are open *)
Definition reads_on (state : quote_state) (q : Z) (ls : list line) (bs : list (list line)) (w : option pystr) : Prop :=
  match state with
  | QStart => quoted_blocks_in q ls bs w /\ bs <> []
  | QWrapUpMaybe => quoted_blocks_in q ls bs w
  | QBlock quoted => forall l l' mid c, quoted = l' :: mid -> opens c -> l_content l = c :: l_content l' -> ~ ends_quote l ->
      q = open_after (l :: mid) ->
      (forall a x b, mid = a ++ x :: b -> ends_quote x -> open_after (l :: a ++ [x]) <> 0) ->
      exists more e e' rest b bs', ls = more ++ e :: rest /\ bs = b :: bs' /\
        quoted_block_in ((l :: mid ++ more) ++ [e]) b /\ b = (l' :: mid ++ more) ++ [e'] /\
        quoted_blocks_in (open_after ((l :: mid ++ more) ++ [e])) rest bs' w
  | QWrapUp t => bs = [] /\ forall pre, joined pre t ->
      exists r u, w = Some u /\ without_blanks ls r /\ joined (pre ++ map l_content r) u
  end.

Definition final_wrap_up (s : quote_state) (w : option pystr) : Prop :=
  (s = QWrapUpMaybe /\ w = None) \/ (exists t, s = QWrapUp t /\ w = Some t).

Lemma blanks_cons q l ls bs w : blank l -> quoted_blocks_in q ls bs w -> quoted_blocks_in q (l :: ls) bs w.
Proof.
  intros B H. destruct H as [ls H|bl l' ls t H1 H2 H3 H4|bl b b' ls bs w H1 H2 H3 H4].
  - constructor. auto.
  - apply (text_after_blocks q (l :: bl)); auto.
  - apply (one_more_block q (l :: bl)); auto.
Qed.
Lemma blank_content l : blank l -> l_content l = [].
Proof. unfold blank, l_content. now intros ->. Qed.

Lemma join_pair t c : join_line_strs [t; c] = join_step t c.
Proof. reflexivity. Qed.

Lemma quoted_loop_sound w : forall ls q state blocks st' blocks',
  let g := quote_level_loop true q ls in
  quoted_loop state blocks (g_items g) (g_end g) = Ok (st', blocks') ->
  Forall single_end ls -> final_wrap_up st' w ->
  exists bs, blocks' = blocks ++ bs /\ reads_on state q ls bs w.
Proof.
  induction ls as [|l ls IH]; intros q state blocks st' blocks' g H SE FW.
  - unfold g in H. cbn in H. destruct (negb (q =? 0)); [discriminate|]. injection H as <- <-.
    exists []. split; [now rewrite app_nil_r|]. destruct FW as [[-> ->]|(t & -> & ->)]; cbn.
    + now constructor.
    + split; [reflexivity|]. intros pre J. exists [], t. split; [reflexivity|]. split; [constructor|]. now rewrite app_nil_r.
  - unfold g in H. clear g. inversion SE as [|? ? S0 S1]; subst.
    cbn [quote_level_loop andb] in H. set (q' := q + quote_level_diff (l_content l)) in *.
    destruct (q' <? 0).
    { cbn in H. destruct (quoted_step state blocks q l) as [[]|]; discriminate. }
    cbn [g_items g_end quoted_loop] in H. apply bind_ok in H as ([state1 blocks1] & HS & H).
    specialize (IH _ _ _ _ _ H S1 FW) as (bs & -> & R). clear H.
    (* a line that opens a block *)
    assert (opened : forall c, first_chr (l_content l) = Ok c -> opens c -> q = 0 ->
       open_block l blocks = Ok (state1, blocks1) ->
       exists bs', blocks1 ++ bs = blocks ++ bs' /\ quoted_blocks_in q (l :: ls) bs' w /\ bs' <> []).
    { intros c F O Q HO. apply open_block_sound with (c := c) in HO as [(l' & -> & -> & B)|(l' & -> & -> & C & N)]; auto.
      - exists ([l'] :: bs). rewrite <- app_assoc. split; [reflexivity|]. split; [|discriminate].
        apply (one_more_block q [] [l]); auto. cbn in R. unfold q' in R. rewrite Q in R.
        now rewrite open_after_cons, Z.add_0_r.
      - exists bs. split; [reflexivity|]. cbn in R.
        destruct (R l l' [] c) as (more & e & e' & rest & b & bs' & -> & -> & B & -> & T); auto.
        { unfold q'. rewrite Q. rewrite open_after_cons. change (open_after []) with 0; lia. }
        { intros a x b X. now destruct a. }
        split; [|discriminate]. cbn [app] in *.
        replace (l :: more ++ e :: rest) with ([] ++ (l :: more ++ [e]) ++ rest) by (cbn; now rewrite <- app_assoc).
        apply one_more_block; auto. }
    destruct state as [|quoted| |t]; cbn [quoted_step] in HS.
    + destruct (is_empty_line l) eqn:EL.
      * injection HS as <- <-. exists bs. split; [reflexivity|]. apply not_empty_spec in EL.
        unfold q' in R. rewrite (blank_content _ EL) in R. change (quote_level_diff []) with 0 in R. rewrite Z.add_0_r in R.
        destruct R as [R N]. split; [|exact N]. now apply blanks_cons.
      * apply bind_ok in HS as (c & F & HS). apply bind_ok in HS as (u & A & HS).
        destruct (is_open_quote c && (q =? 0)) eqn:X; [|discriminate]. apply andb_true_iff in X as [X Q].
        apply open_quote_spec in X. destruct (opened c F X ltac:(lia) HS) as (bs' & E & B). exists bs'. auto.
    + fold q' in HS. cbv zeta in HS. destruct (is_empty_line l) eqn:EL; [|apply bind_ok in HS as (c & LC & HS); destruct ((c =? 8221)%N && (q' =? 0)) eqn:X].
      * injection HS as <- <-. exists bs. split; [reflexivity|]. apply not_empty_spec in EL.
        intros l0 l' mid c -> O C N Q M.
        destruct (R l0 l' (mid ++ [l]) c) as (more & e & e' & rest & b & bs' & -> & -> & B & -> & T); auto.
        { unfold q'. rewrite Q, !open_after_cons, open_after_app, open_after_cons. change (open_after []) with 0. lia. }
        { intros a x b E X. destruct b as [|y b] using rev_ind.
          - apply app_inj_tail in E as [-> ->]. destruct X as [u X]. rewrite blank_content in X by assumption. now destruct u.
          - clear IHb. rewrite app_comm_cons, app_assoc in E. apply app_inj_tail in E as [E _]. eapply M; eauto. }
        exists (l :: more), e, e', rest. eexists _, bs'. rewrite <- app_assoc in *. cbn [app] in *. split; [reflexivity|]. eauto 6.
      * apply bind_ok in HS as (x & HX & [= <- <-]). apply andb_true_iff in X as [X1 X2]. 
        assert (c = 8221%N) by lia. subst c. apply last_chr_ends in LC as [t T].
        exists ((quoted ++ [x]) :: bs). rewrite <- app_assoc. split; [reflexivity|].
        intros l0 l' mid c -> O C N Q M. exists [], l, x, ls. eexists _, bs. rewrite !app_nil_r.
        assert (CX : l_content l = l_content x ++ [8221%N]).
        { pose proof (slice_exact _ _ _ _ S0 HX) as CX. cbv zeta in CX. cbn [the_end] in CX. rewrite T in *.
          rewrite from_end_nonneg, from_end_neg in CX by lia. f_equal. rewrite CX. unfold substring.
          rewrite app_length. cbn [List.length skipn]. change (Z.to_nat 0) with 0%nat. cbn [skipn].
          replace (Z.to_nat (Z.of_nat (List.length t + 1) + -1) - 0)%nat with (List.length t) by lia.
          now rewrite firstn_app, firstn_all, Nat.sub_diag, app_nil_r. }
        assert (Q' : open_after (l0 :: mid ++ [l]) = 0).
        { rewrite open_after_cons, open_after_app, open_after_cons. rewrite open_after_cons in Q. change (open_after []) with 0. unfold q' in X2. lia. }
        split; [reflexivity|]. split; [reflexivity|]. split; [|split; [reflexivity|]].
        -- cbn [app]. eapply block_lines; eauto.
        -- cbn [app]. rewrite Q'. replace q' with 0 in R by lia. exact R.
      * injection HS as <- <-. exists bs. split; [reflexivity|].
        intros l0 l' mid c0 -> O C N Q M.
        assert (Q' : q' = open_after (l0 :: mid ++ [l])).
        { unfold q'. rewrite Q, !open_after_cons, open_after_app, open_after_cons. change (open_after []) with 0. lia. }
        destruct (R l0 l' (mid ++ [l]) c0) as (more & e & e' & rest & b & bs' & -> & -> & B & -> & T); auto.
        { intros a x b E EX. destruct b as [|y b] using rev_ind.
          - apply app_inj_tail in E as [-> ->]. apply (ends_quote_last _ _ LC) in EX. lia.
          - clear IHb. rewrite app_comm_cons, app_assoc in E. apply app_inj_tail in E as [E _]. eapply M; eauto. }
        exists (l :: more), e, e', rest. eexists _, bs'. rewrite <- app_assoc in *. cbn [app] in *. split; [reflexivity|]. eauto 6.
    + destruct (is_empty_line l) eqn:EL.
      * injection HS as <- <-. exists bs. split; [reflexivity|]. apply not_empty_spec in EL.
        unfold q' in R. rewrite (blank_content _ EL) in R. change (quote_level_diff []) with 0 in R. rewrite Z.add_0_r in R.
        now apply blanks_cons.
      * apply bind_ok in HS as (c & F & HS). destruct (is_open_quote c && (q =? 0)) eqn:X.
        -- apply andb_true_iff in X as [X Q]. apply open_quote_spec in X.
           destruct (opened c F X ltac:(lia) HS) as (bs' & E & B & _). exists bs'. auto.
        -- injection HS as <- <-. destruct R as [-> R]. exists []. split; [reflexivity|].
           assert (NB : ~ blank l) by (rewrite <- not_empty_spec; congruence).
           destruct (R [l_content l]) as (r & u & -> & P & J).
           { change [l_content l] with ([] ++ [l_content l]). eapply joined_first; [constructor|reflexivity]. }
           cbn. apply (text_after_blocks q []); auto.
           ++ intros -> c0 t E O. rewrite E in F. injection F as ->. apply open_quote_spec in O. rewrite O in X. discriminate.
           ++ exists (l :: r). split; [now apply picks_keep|exact J].
    + destruct (is_empty_line l) eqn:EL; injection HS as <- <-; destruct R as [-> R]; exists []; (split; [reflexivity|]); (split; [reflexivity|]); intros pre J.
      * apply not_empty_spec in EL. destruct (R _ J) as (r & u & -> & P & J'). exists r, u. split; [reflexivity|]. split; [|exact J'].
        apply picks_drop; [|exact P]. intros X. contradiction.
      * assert (NB : ~ blank l) by (rewrite <- not_empty_spec; congruence).
        destruct (R (pre ++ [l_content l])) as (r & u & -> & P & J').
        { rewrite join_pair. now apply join_step_joined. }
        exists (l :: r), u. split; [reflexivity|]. split; [now apply picks_keep|]. rewrite <- app_assoc in J'. exact J'.
Qed.

Lemma quoted_extract_sound lines pi cs w : Forall single_end lines ->
  quoted_extract lines pi = Ok (cs, w) -> exists bs, cs = map ChQuoted bs /\ bs <> [] /\ quoted_blocks_in 0 lines bs w.
Proof.
  intros SE H. unfold quoted_extract in H. apply bind_ok in H as ([st blocks] & H & E).
  assert (F : final_wrap_up st w /\ cs = map ChQuoted blocks).
  { unfold final_wrap_up. destruct st; try discriminate; injection E as <- <-; eauto 6. }
  destruct F as [F ->]. apply (quoted_loop_sound w) in H as (bs & -> & R & N); auto.
  exists bs. auto.
Qed.

Lemma quoted_first_sound : forall lines items n r,
  (forall k q l, nth_error items k = Some (q, l) -> nth_error lines (n + k) = Some l /\ q = open_after (firstn (n + k) lines)) ->
  forall end_, quoted_header_loop n items end_ = Ok (Some r) -> (r < List.length lines)%nat /\ open_after (firstn r lines) = 0.
Proof.
  intros lines. induction items as [|[q l] items IH]; intros n r I end_ H; cbn [quoted_header_loop] in H; [destruct end_; discriminate|].
  assert (I' : forall k q l, nth_error items k = Some (q, l) -> nth_error lines (S n + k) = Some l /\ q = open_after (firstn (S n + k) lines)).
  { intros k q' l' X. specialize (I (S k) q' l' X). now rewrite Nat.add_succ_r in I. }
  destruct ((q =? 0) && not_empty_line l) eqn:Q; [|eapply IH; eauto].
  apply bind_ok in H as (c & _ & H). destruct (is_open_quote c); [|eapply IH; eauto].
  injection H as <-. destruct (I O q l eq_refl) as [N Z]. rewrite Nat.add_0_r in N, Z.
  split; [apply nth_error_Some; congruence|]. lia.
Qed.

(** * The classes *)

Lemma quoted_sub_sound i : sub_sound KParagraph i quoted_sub.
Proof.
  split; [reflexivity|]. split.
  - intros ls n H. unfold quoted_sub, sp_first_header, quoted_first_header in H.
    eapply quoted_first_sound; [|exact H]. intros k q l X. cbn [Nat.add]. apply (quote_levels true). exact X.
  - intros ls pi cs w SE H. cbn in H. apply quoted_extract_sound in H as (bs & -> & N & B); [|exact SE].
    now apply parts_quoted.
Qed.
Lemma as_sub_sound k i p subs_of :
  known_conf p -> pc_must_have_intro p = true -> pc_must_have_multiple p = true ->
  child_list k i (pc_kind p) (pc_first p) -> subs_sound (pc_kind p) subs_of -> sub_sound k i (as_sub p subs_of).
Proof.
  intros K I M C SS. split; [exact I|]. split; [apply find_first_candidate|].
  intros ls pi cs w SE H. cbn in H. apply bind_ok in H as ([es w'] & H & [= <- <-]).
  apply extract_multiple_sound in H as [E L]; auto. eapply parts_list; eauto.
Qed.
Lemma no_subs_sound k : subs_sound k no_subs.
Proof. intros i subs [= <-]. constructor. Qed.
Lemma numeric_point_subs_sound : subs_sound KNumericPoint numeric_point_subs.
Proof.
  intros i subs [= <-]. apply Forall_cons; [|apply Forall_nil].
  apply as_sub_sound; try reflexivity; [constructor|constructor|apply no_subs_sound].
Qed.
Lemma alphabetic_point_subs_sound : subs_sound KAlphabeticPoint alphabetic_point_subs.
Proof.
  intros [i|] subs; [|discriminate]. intros [= <-].
  repeat apply Forall_cons; try apply Forall_nil; apply as_sub_sound; try reflexivity; try constructor; apply no_subs_sound.
Qed.
Lemma paragraph_subs_sound : subs_sound KParagraph paragraph_subs.
Proof.
  intros i subs [= <-]. repeat apply Forall_cons; try apply Forall_nil; [apply quoted_sub_sound| |]; apply as_sub_sound; try reflexivity; try constructor;
    [apply alphabetic_point_subs_sound|apply numeric_point_subs_sound].
Qed.
