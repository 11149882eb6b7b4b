From Coq Require Import Lia.
From Coq Require Import ZifyBool ZifyNat ZifyN.
From Verif Require Import Unicode PyBase PyBaseFacts NumModel IdModel IdProofs RefModel RefSpec TreeModel SemModel GramModel GramSpec GramProofs GramProofs3 PegModel PegSpec PegProofs PegProofs2 PegProofs3 PegProofs4.
Local Open Scope Z_scope.

(** * Identifiers that can be compared *)

Definition fine {A} (r : res A) : Prop := exists x, r = Ok x.
Lemma digits_ascii d : digits d -> ascii_digits d.
Proof. intros [_ F]. unfold ascii_digits. revert F. now apply Forall_impl. Qed.
Lemma digits_int d : digits d -> fine (py_int d).
Proof. intros D. eexists. apply py_int_digits; [now apply digits_ascii|apply D]. Qed.
Lemma digits_no c d : digits d -> ~ (48 <= c <= 57)%N -> ~ In c d.
Proof. intros [_ F] N I. rewrite Forall_forall in F. apply F in I. contradiction. Qed.
Definition numbered (i : pystr) : Prop := exists n l, remove_chr 47 i = n ++ l /\ digits n /\ maybe is_small l.
Lemma isdigit_digits d : digits d -> str_isdigit d = true.
Proof. intros D. apply ascii_digits_isdigit; [now apply digits_ascii|apply D]. Qed.
Lemma isdigit_letter d c : is_small c -> str_isdigit (d ++ [c]) = false.
Proof.
  intros C. assert (E : isdigit_chr c = false) by (unfold is_small in C; unfold isdigit_chr; destruct (N.ltb_spec c 128); lia).
  unfold str_isdigit. destruct (d ++ [c]) eqn:X; [now destruct d|]. rewrite <- X, forallb_app. cbn [forallb]. rewrite E. cbn. apply andb_false_r.
Qed.
Lemma numeric_next i j : numbered i -> numbered j -> fine (is_next_numeric_identifier i j).
Proof.
  intros (n & l & E & D & L) (m & k & E' & D' & K). unfold is_next_numeric_identifier. rewrite E, E'.
  destruct L as [|c L], K as [|e K]; rewrite ?app_nil_r, ?(isdigit_digits _ D), ?(isdigit_digits _ D'), ?isdigit_letter by assumption; rewrite ?(isdigit_digits _ D'), ?isdigit_letter by assumption.
  - destruct (digits_int _ D) as [a ->], (digits_int _ D') as [b ->]. cbn. eexists; reflexivity.
  - eexists; reflexivity.
  - rewrite drop_last_snoc. destruct (digits_int _ D) as [a ->], (digits_int _ D') as [b ->]. cbn. eexists; reflexivity.
  - rewrite !last_chr_snoc. destruct (str_eqb _ _); cbn; eexists; reflexivity.
Qed.
Inductive in_book : pystr -> Prop :=
| ib_plain n : digits n -> in_book n
| ib_letter n c : digits n -> is_capital c -> in_book (n ++ [47%N; c]).
Lemma mem_no c s : ~ In c s -> mem_chr c s = false.
Proof. intros N. destruct (mem_chr c s) eqn:E; [|reflexivity]. apply PyBaseFacts.mem_chr_In in E. contradiction. Qed.
Lemma mem_yes c s : In c s -> mem_chr c s = true.
Proof. apply PyBaseFacts.mem_chr_In. Qed.
Lemma in_book_next i j : in_book i -> in_book j -> fine (article_next_in_book i j).
Proof.
  assert (M : forall n c, mem_chr 47 (n ++ [47%N; c]) = true) by (intros; apply mem_yes, in_elt).
  assert (S : forall n c, digits n -> is_capital c -> split_chr 47 (n ++ [47%N; c]) = [n; [c]]).
  { intros n c D C. rewrite split_chr_app by (now apply digits_no). rewrite split_chr_none; [reflexivity|]. intros [->|[]]. unfold is_capital in C. lia. }
  intros [n D|n c D C] [m D'|m e D' C']; unfold article_next_in_book; rewrite ?M, ?(mem_no 47 n), ?(mem_no 47 m) by (now apply digits_no); cbn [negb];
    rewrite ?S by assumption; rewrite ?(mem_no 47 m) by (now apply digits_no); cbn [negb].
  - destruct (digits_int _ D) as [a ->], (digits_int _ D') as [b ->]. cbn. eexists; reflexivity.
  - eexists; reflexivity.
  - destruct (digits_int _ D) as [a ->], (digits_int _ D') as [b ->]. cbn. eexists; reflexivity.
  - eexists; reflexivity.
Qed.
Lemma in_book_no i : in_book i -> ~ In 58%N i.
Proof.
  intros [n D|n c D C] I; [revert I; now apply digits_no|]. apply in_app_iff in I as [I|[I|[I|[]]]]; [revert I; now apply digits_no|discriminate|subst; unfold is_capital in C; lia].
Qed.
Lemma article_cases i : article_shape i -> in_book i \/ exists b k, i = b ++ 58%N :: k /\ digits b /\ in_book k.
Proof.
  intros [n D|n c D C|b n B D|b n c B D C]; [left; now constructor|left; now constructor|right; exists b, n|right; exists b, (n ++ [47%N; c])]; repeat split; try apply B; now constructor.
Qed.
Lemma article_next i j : article_shape i -> article_shape j -> fine (article_is_next_identifier i j).
Proof.
  intros I J. unfold article_is_next_identifier.
  apply article_cases in I as [I|(b & k & -> & B & K)]; apply article_cases in J as [J|(b' & k' & -> & B' & K')].
  - rewrite !mem_no by (now apply in_book_no). cbn. now apply in_book_next.
  - rewrite (mem_no 58 i) by (now apply in_book_no). rewrite mem_yes by (apply in_elt). cbn. eexists; reflexivity.
  - rewrite (mem_no 58 j) by (now apply in_book_no). rewrite mem_yes by (apply in_elt). cbn. eexists; reflexivity.
  - rewrite !mem_yes by (apply in_elt). cbn [Bool.eqb negb]. rewrite !split_chr_app by (now apply digits_no). rewrite !split_chr_none by (now apply in_book_no).
    destruct (str_eqb b b'); cbn [negb]; [now apply in_book_next|]. destruct (digits_int _ B) as [a ->], (digits_int _ B') as [a' ->]. cbn. eexists; reflexivity.
Qed.

(** * The collector takes all items *)

(* an identifier that can be compared with the one before it *)
Definition tame_id (t : part_type) (i : pystr) : Prop :=
  match t with
  | PArticle => article_shape i
  | PParagraph | PNumericPoint => numbered i
  | PAlphabeticSubpoint => False
  | PAlphabeticPoint | PNumericSubpoint => True
  end.
Lemma part_next t f i j : part_is_next t = Some f -> tame_id t i -> tame_id t j -> fine (f i j).
Proof.
  destruct t; cbn [part_is_next tame_id]; intros [= <-] I J; cbn [sae_is_next_identifier]; try contradiction.
  - now apply article_next.
  - now apply numeric_next.
  - eexists; reflexivity.
  - now apply numeric_next.
Qed.
Definition tame_item (t : part_type) (d : rpart) : Prop := match d with RNone => False | RId i => tame_id t i | RRange _ _ => True end.
Definition tame_collector (c : collector) : Prop := forall d, co_deferred c = Some d -> tame_item (d_type d) (d_data d).
Lemma commit_none c : co_deferred (commit_deferred_item c) = None.
Proof. unfold commit_deferred_item. destruct (co_deferred c) as [d|] eqn:E; [|exact E]. now destruct (d_type d). Qed.
Lemma same_type a b : part_type_eqb a b = true -> a = b.
Proof. now destruct a, b. Qed.
Lemma add_tame c t d a b : tame_collector c -> tame_item t d -> exists c', add_item c t d a b = Ok c' /\ tame_collector c'.
Proof.
  intros C I. unfold add_item.
  assert (M : exists m, mergeable_into_deferred c t d = Ok m /\ (m = true -> exists e i j, co_deferred c = Some e /\ d_data e = RId i /\ d = RId j)).
  { unfold mergeable_into_deferred. destruct (co_deferred c) as [e|] eqn:E; [|exists false; split; [reflexivity|discriminate]].
    destruct (part_type_eqb (d_type e) t) eqn:T; cbn [negb]; [|exists false; split; [reflexivity|discriminate]]. apply same_type in T. specialize (C e E). rewrite T in C.
    destruct d as [|j|]; [contradiction| |exists false; split; [reflexivity|discriminate]]. destruct (d_data e) as [|i|] eqn:De; [contradiction| |exists false; split; [reflexivity|discriminate]].
    cbn [is_tuple orb]. destruct (part_is_next t) as [f|] eqn:F; [|exists false; split; [reflexivity|discriminate]].
    destruct (part_next t f i j F C I) as [m M]. exists m. split; [exact M|]. intros _. eauto 6. }
  destruct M as (m & -> & M). cbn [bind]. destruct m.
  - destruct (M eq_refl) as (e & i & j & E & De & ->). unfold merge_to_deferred. rewrite E, De. cbn [bind]. eexists. split; [reflexivity|].
    intros x X. rewrite commit_none in X. discriminate.
  - eexists. split; [reflexivity|]. intros x [= <-]. exact I.
Qed.
Lemma add_all_tame l : forall c, tame_collector c -> Forall (fun x => tame_item (ad_type x) (ad_data x)) l -> fine (add_all c l).
Proof.
  induction l as [|x l IH]; intros c C F; [eexists; reflexivity|]. apply Forall_cons_iff in F as [X F]. cbn [add_all].
  destruct (add_tame c _ _ (ad_start x) (ad_end x) C X) as (c' & -> & C'). cbn [bind]. auto.
Qed.
