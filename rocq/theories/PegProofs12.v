From Coq Require Import Lia.
From Coq Require Import ZifyBool ZifyNat ZifyN.
From Verif Require Import Unicode PyBase PyBaseFacts NumModel IdModel LineSpec DateModel DateSpec DateProofs RefModel RefSpec StructModel StructSpec StructProofs3 TreeModel SemModel GramModel GramSpec GramProofs3 PegModel PegSpec PegProofs PegProofs2 PegProofs3 PegProofs4 PegProofs5 PegProofs6 PegProofs7.
Local Open Scope Z_scope.

(** * Quotes are read as they are written *)

Definition at_quote (s : pystr) : Prop := match s with [] => True | c :: _ => In c (u8 "„”") end.
Lemma star_quote s x r : p_re (RStar c_not_quote) s = Some (x, r) -> s = x ++ r /\ plain_text x /\ at_quote r.
Proof.
  rewrite re_star. intros [= <- <-]. split; [symmetry; apply take_drop_while|]. split.
  - induction s as [|c s IH]; [constructor|]. cbn [take_while]. destruct (c_not_quote c) eqn:E; [|constructor]. constructor; [|exact IH].
    unfold c_not_quote in E. intros I. apply in_str_in in I. rewrite I in E. discriminate.
  - induction s as [|c s IH]; [exact I|]. cbn [drop_while]. destruct (c_not_quote c) eqn:E; [exact IH|]. unfold c_not_quote in E. apply (in_str_in (u8 "„”")). now destruct (in_str (u8 "„”") c).
Qed.
Lemma at_quote_ws s : at_quote s -> ws s = s.
Proof. destruct s as [|c s]; [reflexivity|]. intros H. apply ws_solid_head. apply in_str_in in H. eapply in_str_space; [|exact H]. reflexivity. Qed.
Definition shows (q : g_quote) (inner : pystr) : Prop := exists m, q = Leaf (u8 "„") :: m ++ [Leaf (u8 "”")] /\ concat (flat_map leaves m) = inner.
Lemma quote_exact n : forall s q r, quote_loop n s = Some (q, r) -> exists inner, ws s = u8 "„" ++ inner ++ u8 "”" ++ r /\ balanced inner /\ shows q inner.
Proof.
  induction n as [|n IH]; intros s q r H; [discriminate|]. cbn [quote_loop] in H.
  set (one := p_bind (quote_loop n) (fun q => r <~ p_re (RStar c_not_quote) ;; p_ret (Node [Node q; Leaf r]))) in *.
  assert (One : forall s x r, at_quote s -> one s = Some (x, r) -> exists inner c, s = u8 "„" ++ inner ++ u8 "”" ++ c ++ r /\ balanced inner /\ plain_text c /\ at_quote r /\
    concat (leaves x) = u8 "„" ++ inner ++ u8 "”" ++ c).
  { clear -IH. intros s x r A H. apply bind_inv in H as (q & s1 & Q & H). apply bind_inv in H as (c & s2 & C & H). apply ret_inv in H as [-> ->].
    apply IH in Q as (inner & E & B & m & -> & M). rewrite (at_quote_ws s A) in E. apply star_quote in C as (-> & P & A'). exists inner, c.
    split; [rewrite E; reflexivity|]. split; [exact B|]. split; [exact P|]. split; [exact A'|].
    assert (LN : forall l : list (nested pystr), leaves (Node l) = flat_map leaves l) by reflexivity. rewrite LN. cbn [flat_map]. rewrite LN. cbn [flat_map leaves].
    rewrite flat_map_app, !concat_app. cbn [flat_map leaves app concat]. rewrite ?concat_app, M. cbn [concat app]. rewrite !app_nil_r, <- !app_assoc. reflexivity. }
  assert (Rounds : forall k s l r pre, at_quote s -> balanced pre -> p_rounds k one s = (l, r) -> exists mid, s = mid ++ r /\ balanced (pre ++ mid) /\ at_quote r /\ concat (flat_map leaves l) = mid).
  { clear -One. induction k as [|k IHk]; intros s l r pre A B H; cbn [p_rounds] in H.
    - injection H as <- <-. exists []. rewrite app_nil_r. auto.
    - destruct (one s) as [[x s']|] eqn:O; [|injection H as <- <-; exists []; rewrite app_nil_r; auto].
      destruct (p_rounds k one s') as [l' r'] eqn:R. injection H as <- <-. apply One in O as (inner & c & -> & B' & P & A' & L); [|exact A].
      apply (IHk s' l' r' (pre ++ u8 "„" ++ inner ++ u8 "”" ++ c)) in R as (mid & -> & Bm & Ar & M); [|exact A'|now constructor].
      exists ((u8 "„" ++ inner ++ u8 "”" ++ c) ++ mid). split; [now rewrite <- !app_assoc|]. split; [now rewrite !app_assoc in *|]. split; [exact Ar|].
      cbn [flat_map]. now rewrite concat_app, L, M. }
  unfold p_rule in H. apply bind_inv in H as (a & s1 & Ea & H). apply bind_inv in H as (b & s2 & Eb & H). apply bind_inv in H as (l & s3 & El & H).
  apply bind_inv in H as (z & s4 & Ez & H). apply ret_inv in H as [-> ->]. apply tok_inv in Ea as (-> & Ea & _). rewrite ws_idem in Ea.
  apply star_quote in Eb as (-> & P & A). injection El as El. apply (Rounds _ _ _ _ b) in El as (mid & -> & B & A' & M); [|exact A|now constructor].
  apply tok_inv in Ez as (-> & Ez & _). rewrite (at_quote_ws _ A') in Ez. subst s3. exists (b ++ mid). split; [rewrite Ea; now rewrite <- !app_assoc|]. split; [exact B|].
  exists [Leaf b; Node l]. split; [reflexivity|]. cbn [flat_map leaves app concat]. rewrite app_nil_r, M. reflexivity.
Qed.
Lemma shows_quote q inner : shows q inner -> convert_quote_to_string q = Ok (str_strip inner).
Proof. intros (m & -> & M). apply quote_ok. exists m. split; [reflexivity|]. now rewrite M. Qed.
Lemma quote_reads T s q r : suf T s -> g_quote_rule s = Some (q, r) -> exists x, convert_quote_to_string q = Ok x /\ quoted T x.
Proof.
  intros [u U] H. apply quote_exact in H as (inner & E & B & S). exists (str_strip inner). split; [now apply shows_quote|].
  exists (u ++ take_while isspace_chr s), inner, r. split; [|auto]. rewrite U, <- app_assoc, <- E. f_equal. symmetry. apply take_drop_while.
Qed.

Definition said (T : pystr) (q : g_quote) : Prop := exists x, convert_quote_to_string q = Ok x /\ quoted T x.

(** * Numbers, dates and structural elements *)

Definition spelled {A} (f : A -> pystr) (p : parser A) : Prop := spells p f.
Lemma spelled_written {A} T (f : A -> pystr) p s x r : spelled f p -> suf T s -> p s = Some (x, r) -> written T (f x).
Proof. intros P [u U] H. apply P in H as (w & -> & W). exists u, w, r. auto. Qed.
Lemma toks_spelled l : Forall (fun w => forallb (fun c => negb (isspace_chr c)) w = true) l -> spelled (fun x => x) (p_rule (p_toks l)).
Proof.
  intros F. apply spells_rule. intros s x r H. apply toks_inv in H as (w & I & H). rewrite Forall_forall in F. now apply (spells_tok w (F w I)) in H.
Qed.
Ltac solids := repeat (constructor; [reflexivity|]); constructor.
Lemma ordinal_spelled : spelled (fun x => x) g_hungarian_ordinal.
Proof. apply toks_spelled. solids. Qed.
Lemma capital_spelled : spelled (fun x => x) g_hungarian_ordinal_capital.
Proof. apply toks_spelled. solids. Qed.
Lemma month_spelled : spelled (fun x => x) g_month.
Proof. apply toks_spelled. solids. Qed.
Lemma number_spelled : spelled (fun x => x) g_number.
Proof. intros s x r H. apply number_spells in H as [H _]. exact H. Qed.
Lemma roman_spelled : spelled (fun x => x) g_roman.
Proof. intros s x r H. apply roman_spells in H as [H _]. exact H. Qed.
Lemma letter_spelled p : spelled (fun x => x) p -> spelled (@concat N) (g_id_with_letter p).
Proof.
  intros P s x r H. unfold g_id_with_letter in H. apply bind_inv in H as (n & s1 & N & H). apply bind_inv in H as (l & s2 & L & H). apply ret_inv in H as [-> ->]. cbn [concat].
  apply P in N as (w & -> & W). cut (exists v, s1 = v ++ s2 /\ squeeze v = concat (listed l)).
  - intros (v & -> & V). exists (w ++ v). now rewrite <- app_assoc, squeeze_app, W, V.
  - apply opt_inv in L as [(y & -> & L)|(-> & -> & _)]; [|now exists []]. apply bind_inv in L as (c & t1 & C & L). apply bind_inv in L as (z & t2 & Z & L). apply ret_inv in L as [-> ->].
    apply set_inv in Z as (d & -> & -> & D). assert (Sd : squeeze [d] = [d]) by (apply squeeze_solid; constructor; [now apply AZ_space|constructor]).
    apply opt_inv in C as [(y & -> & C)|(-> & <- & _)].
    + apply tok_spells in C as (-> & v & -> & V); [|reflexivity]. exists (v ++ [d]). now rewrite <- app_assoc, squeeze_app, V, Sd.
    + exists [d]. auto.
Qed.
Lemma any_token_spelled : spelled (fun x => x) g_any_token.
Proof.
  intros s x r H. unfold g_any_token, p_rule in H. assert (P : ws s = x ++ r /\ Forall (fun c => isspace_chr c = false) x).
  { apply or_inv in H as [H|[_ H]]; [apply or_inv in H as [H|[_ H]]|].
    - unfold g_word, p_rule in H. rewrite ws_idem in H. apply plus_spells in H as (E & Q & N & F); [|auto with peg]. split; [exact E|]. eapply forallb_solid; [|exact F]. auto with peg.
    - unfold g_number, p_rule in H. rewrite ws_idem in H. apply plus_spells in H as (E & Q & N & F); [|auto with peg]. split; [exact E|]. eapply forallb_solid; [|exact F]. auto with peg.
    - apply set_inv in H as (c & E & -> & _). split; [exact E|]. constructor; [now apply ws_head in E|constructor]. }
  destruct P as [E F]. apply squeeze_ws in E; [exact E|exact F].
Qed.
Lemma many_spelled {A} (f : A -> pystr) p : spelled f p -> spelled (fun l => flat_map f l) (p_many p).
Proof.
  intros P s l r [= H]. revert l r H. generalize (length s) as n. intros n. revert s. induction n as [|n IH]; intros s l r H; cbn [p_rounds] in H; [injection H as <- <-; now exists []|].
  destruct (p s) as [[x s']|] eqn:E; [|injection H as <- <-; now exists []]. destruct (p_rounds n p s') as [l' r'] eqn:Q. injection H as <- <-.
  apply P in E as (w & -> & W). apply IH in Q as (v & -> & V). exists (w ++ v). cbn [flat_map]. now rewrite <- app_assoc, squeeze_app, W, V.
Qed.
