From Coq Require Import Lia.
From Coq Require Import ZifyBool ZifyNat ZifyN.
From Verif Require Import Unicode PyBase PyBaseFacts NumModel IdModel RefModel RefSpec TreeModel SemModel GramModel GramSpec PegModel PegSpec PegProofs PegProofs2 PegProofs3.
Local Open Scope Z_scope.

(** * What is read, without white space *)

Lemma squeeze_app a b : squeeze (a ++ b) = squeeze a ++ squeeze b.
Proof. apply filter_app. Qed.
Lemma squeeze_spaces s : squeeze (take_while isspace_chr s) = [].
Proof. induction s as [|c s IH]; [reflexivity|]. cbn [take_while]. destruct (isspace_chr c) eqn:E; [|reflexivity]. cbn [squeeze filter]. rewrite E. exact IH. Qed.
Lemma squeeze_solid s : Forall (fun c => isspace_chr c = false) s -> squeeze s = s.
Proof. induction 1 as [|c s H _ IH]; [reflexivity|]. cbn [squeeze filter]. rewrite H. cbn [negb]. f_equal. exact IH. Qed.
Lemma squeeze_ws s r w : ws s = w ++ r -> Forall (fun c => isspace_chr c = false) w -> exists v, s = v ++ r /\ squeeze v = w.
Proof.
  intros E F. exists (take_while isspace_chr s ++ w). rewrite <- app_assoc, <- E, squeeze_app, squeeze_spaces, (squeeze_solid w F).
  split; [symmetry; apply take_drop_while|reflexivity].
Qed.
(* [f x] is what was read *)
Definition spells {A} (p : parser A) (f : A -> pystr) : Prop := forall s x r, p s = Some (x, r) -> exists w, s = w ++ r /\ squeeze w = f x.
Lemma spells_takes {A} (p : parser A) f : spells p f -> takes p.
Proof. intros P s x r H. apply P in H as (w & -> & _). now exists w. Qed.
Lemma spells_rule {A} (p : parser A) f : spells p f -> spells (p_rule p) f.
Proof.
  intros P s x r H. unfold p_rule in H. apply P in H as (w & E & W). exists (take_while isspace_chr s ++ w). rewrite <- app_assoc, <- E, squeeze_app, squeeze_spaces.
  split; [symmetry; apply take_drop_while|exact W].
Qed.
Lemma spells_bind {A B} (p : parser A) (q : A -> parser B) f g : spells p f -> (forall a, spells (q a) (g a)) ->
  forall s y r, p_bind p q s = Some (y, r) -> exists a w, s = w ++ r /\ squeeze w = f a ++ g a y.
Proof.
  intros P Q s y r H. apply bind_inv in H as (a & s' & E & H). apply P in E as (w & -> & W). apply Q in H as (v & -> & V). exists a, (w ++ v).
  rewrite app_assoc, squeeze_app, W, V. auto.
Qed.
Lemma spells_tok w : forallb (fun c => negb (isspace_chr c)) w = true -> spells (p_tok w) (fun x => x).
Proof.
  intros F s x r H. apply tok_inv in H as (-> & E & _). apply squeeze_ws; [exact E|]. apply Forall_forall. intros c Hc. rewrite forallb_forall in F.
  specialize (F c Hc). now destruct (isspace_chr c).
Qed.
Lemma forallb_solid f w : (forall c, f c = true -> isspace_chr c = false) -> forallb f w = true -> Forall (fun c => isspace_chr c = false) w.
Proof. intros F H. apply Forall_forall. intros c Hc. rewrite forallb_forall in H. auto. Qed.
Lemma plus_spells f s x r : (forall c, f c = true -> isspace_chr c = false) -> p_re (RPlus f) s = Some (x, r) ->
  s = x ++ r /\ squeeze x = x /\ x <> [] /\ forallb f x = true.
Proof. intros F H. apply plus_inv in H as (-> & N & A & _). repeat split; auto. apply squeeze_solid. eapply forallb_solid; eauto. Qed.
Lemma set_inv f s x r : p_re (RSet f) s = Some (x, r) -> exists c, s = c :: r /\ x = [c] /\ f c = true.
Proof. rewrite re_set. destruct s as [|c t]; [discriminate|]. destruct (f c) eqn:E; [|discriminate]. intros [= <- <-]. eauto. Qed.
Lemma digits_of w : w <> [] -> forallb c_09 w = true -> digits w.
Proof. intros N F. split; [exact N|]. apply Forall_forall. intros c Hc. rewrite forallb_forall in F. specialize (F c Hc). unfold c_09 in F. lia. Qed.
Lemma number_spells s x r : g_number s = Some (x, r) -> (exists w, s = w ++ r /\ squeeze w = x) /\ digits x.
Proof.
  intros H. unfold g_number, p_rule in H. apply plus_spells in H as (E & Q & N & F); [|auto with peg]. split; [|now apply digits_of].
  eapply squeeze_ws; [exact E|]. eapply forallb_solid; [|exact F]. auto with peg.
Qed.
Lemma tok_spells w s x r : p_tok w s = Some (x, r) -> forallb (fun c => negb (isspace_chr c)) w = true -> x = w /\ exists v, s = v ++ r /\ squeeze v = w.
Proof. intros H F. split; [now apply tok_inv in H|]. pose proof (spells_tok w F _ _ _ H) as (v & E & V). apply tok_inv in H as (-> & _). eauto. Qed.

(** * Identifiers *)

Definition reads_id (level : nat) (p : parser (list pystr)) : Prop := forall s x r, p s = Some (x, r) ->
  (exists w, s = w ++ r /\ squeeze w = concat x) /\ id_shape level (concat x).
Lemma rule_reads level p : reads_id level p -> reads_id level (p_rule p).
Proof.
  intros P s x r H. unfold p_rule in H. apply P in H as [(w & E & W) I]. split; [|exact I]. exists (take_while isspace_chr s ++ w).
  rewrite <- app_assoc, <- E, squeeze_app, squeeze_spaces. split; [symmetry; apply take_drop_while|exact W].
Qed.
Lemma set_squeeze f c : (forall c, f c = true -> isspace_chr c = false) -> f c = true -> squeeze [c] = [c].
Proof. intros F H. cbn [squeeze filter]. now rewrite (F c H). Qed.
Ltac join := repeat rewrite <- app_assoc; repeat rewrite squeeze_app; cbn [concat app]; repeat rewrite app_nil_r.

Lemma article_group_reads : reads_id 1 g_article_id_group.
Proof.
  intros s x r H. unfold g_article_id_group in H. apply bind_inv in H as (b & s1 & B & H). apply bind_inv in H as (n & s2 & N & H).
  apply bind_inv in H as (l & s3 & L & H). apply ret_inv in H as [-> ->]. apply number_spells in N as [(w2 & -> & W2) D2].
  assert (B' : exists w1, s = w1 ++ w2 ++ s2 /\ squeeze w1 = concat (listed b) /\ (listed b = [] \/ exists n, digits n /\ listed b = [n; u8 ":"])).
  { apply opt_inv in B as [(y & -> & B)|(-> & E & _)]; [|exists []; cbn; auto].
    apply bind_inv in B as (n' & t1 & E1 & B). apply bind_inv in B as (c & t2 & E2 & B). apply ret_inv in B as [-> ->].
    apply number_spells in E1 as [(v1 & -> & V1) D1]. apply tok_spells in E2 as (-> & v2 & -> & V2); [|reflexivity].
    exists (v1 ++ v2). join. rewrite V1, V2. split; [reflexivity|]. split; [reflexivity|]. right. exists n'. auto. }
  assert (L' : exists w3, s2 = w3 ++ s3 /\ squeeze w3 = concat (listed l) /\ (listed l = [] \/ exists c, is_capital c /\ listed l = [u8 "/"; [c]])).
  { apply opt_inv in L as [(y & -> & L)|(-> & E & _)]; [|exists []; cbn; auto].
    apply bind_inv in L as (c & t1 & E1 & L). apply bind_inv in L as (z & t2 & E2 & L). apply ret_inv in L as [-> ->].
    apply tok_spells in E1 as (-> & v1 & -> & V1); [|reflexivity]. apply set_inv in E2 as (c & -> & -> & C).
    exists (v1 ++ [c]). join. rewrite V1, (set_squeeze _ _ AZ_space C). split; [reflexivity|]. split; [reflexivity|]. right. exists c. split; [|reflexivity].
    unfold c_AZ in C. unfold is_capital. lia. }
  destruct B' as (w1 & -> & W1 & B'). destruct L' as (w3 & -> & W3 & L'). split.
  - exists (w1 ++ w2 ++ w3). join. rewrite !concat_app, W1, W2, W3. cbn [concat]. now rewrite ?app_nil_r.
  - rewrite !concat_app. cbn [concat]. rewrite app_nil_r. destruct B' as [->|(n' & D & ->)], L' as [->|(c & C & ->)]; cbn [concat]; rewrite ?app_nil_r.
    + now constructor.
    + now apply (as_letter n c).
    + rewrite <- app_assoc. now apply (as_book n' n).
    + rewrite <- app_assoc. now apply (as_both n' n c).
Qed.
Lemma article_reads : reads_id 1 g_article_id.
Proof. apply rule_reads, article_group_reads. Qed.
Lemma paragraph_reads : reads_id 2 g_paragraph_id.
Proof.
  apply rule_reads. intros s x r H. apply bind_inv in H as (n & s1 & N & H). apply bind_inv in H as (l & s2 & L & H). apply ret_inv in H as [-> ->].
  apply number_spells in N as [(w1 & -> & W1) D]. apply opt_inv in L as [(y & -> & L)|(-> & -> & _)].
  - apply set_inv in L as (c & -> & -> & C). split.
    + exists (w1 ++ [c]). join. now rewrite W1, (set_squeeze _ _ az_space C).
    + exists n, [c]. repeat split; try apply D. constructor. unfold c_az in C. unfold is_small. lia.
  - split; [exists w1; cbn; rewrite W1, app_nil_r; auto|]. exists n, []. cbn. repeat split; try apply D. constructor.
Qed.
Lemma alphabetic_point_reads : reads_id 3 g_alphabetic_point_id.
Proof.
  apply rule_reads. intros s x r H. apply map_inv in H as (y & H & ->). cbn [concat]. rewrite app_nil_r.
  apply or_inv in H as [H|[_ H]]; [apply or_inv in H as [H|[_ H]]|].
  - apply tok_spells in H as (-> & v & -> & V); [|reflexivity]. split; [eauto|]. right; left; reflexivity.
  - apply tok_spells in H as (-> & v & -> & V); [|reflexivity]. split; [eauto|]. right; right; left; reflexivity.
  - apply set_inv in H as (c & -> & -> & C). split; [exists [c]; split; [reflexivity|now apply (set_squeeze _ _ az_space)]|].
    left. exists c. split; [reflexivity|]. unfold c_az in C. unfold is_small. lia.
Qed.
Lemma numeric_point_reads : reads_id 3 g_numeric_point_id.
Proof.
  apply rule_reads. intros s x r H. apply bind_inv in H as (n & s1 & N & H). apply bind_inv in H as (l & s2 & L & H). apply ret_inv in H as [-> ->].
  apply number_spells in N as [(w1 & -> & W1) D]. apply opt_inv in L as [(y & -> & L)|(-> & -> & _)].
  - apply bind_inv in L as (sl & t1 & E1 & L). apply bind_inv in L as (z & t2 & E2 & L). apply ret_inv in L as [-> ->].
    apply set_inv in E2 as (c & -> & -> & C). assert (Cs : is_small c) by (unfold c_az in C; unfold is_small; lia).
    apply opt_inv in E1 as [(y & -> & E1)|(-> & <- & _)].
    + apply tok_spells in E1 as (-> & v & -> & V); [|reflexivity]. split.
      * exists (w1 ++ v ++ [c]). join. now rewrite W1, V, (set_squeeze _ _ az_space C).
      * right; right; right. exists n, [47%N], [c]. repeat split; try apply D; try discriminate; now constructor.
    + split.
      * exists (w1 ++ [c]). join. now rewrite W1, (set_squeeze _ _ az_space C).
      * right; right; right. exists n, [], [c]. repeat split; try apply D; try discriminate; now constructor.
  - split; [exists w1; cbn; rewrite W1, app_nil_r; auto|]. right; right; right. exists n, [], []. cbn. repeat split; try apply D; try constructor. contradiction.
Qed.
Lemma alphabetic_subpoint_reads : reads_id 4 g_alphabetic_subpoint_id.
Proof.
  apply rule_reads. intros s x r H. apply map_inv in H as (y & H & ->). cbn [concat]. rewrite app_nil_r.
  apply re_inv in H as [-> H]. cbn [r_match] in H. destruct (y ++ r) as [|c t] eqn:S; [discriminate|]. destruct (c_az c) eqn:C; [|discriminate].
  assert (Cs : is_small c) by (unfold c_az in C; unfold is_small; lia).
  assert (D : y = [c] \/ exists d, y = [c; d] /\ c_az d = true).
  { destruct t as [|d t].
    - injection H as <-. rewrite app_nil_r in S. now left.
    - destruct (c_az d) eqn:D; injection H as <-; [right; exists d; split; [|exact D]|left].
      + apply (app_inv_tail t y [c; d]). exact S.
      + apply (app_inv_tail (d :: t) y [c]). exact S. }
  rewrite <- S. clear S H. destruct D as [->|(d & -> & D)].
  - split; [exists [c]; split; [reflexivity|now apply (set_squeeze _ _ az_space)]|]. left. exists c, []. repeat split; try apply Cs. constructor.
  - split.
    + exists [c; d]. split; [reflexivity|]. cbn [squeeze filter]. now rewrite (az_space c C), (az_space d D).
    + left. exists c, [d]. repeat split; try apply Cs. constructor. unfold c_az in D. unfold is_small. lia.
Qed.
Lemma numeric_subpoint_reads : reads_id 4 g_numeric_subpoint_id.
Proof.
  apply rule_reads. intros s x r H. apply map_inv in H as (y & H & ->). cbn [concat]. rewrite app_nil_r. apply number_spells in H as [W D].
  split; [exact W|]. now right.
Qed.
