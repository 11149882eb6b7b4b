From Coq Require Import Lia.
From Coq Require Import ZifyBool ZifyNat ZifyN.
From Verif Require Import PyBase PyBaseFacts IdModel LineModel DateModel RefModel RefSpec TreeModel TreeSpec StructModel HtmlModel HtmlSpec HtmlProofs.
Local Open Scope Z_scope.

(** * Indentation *)
Lemma drop_nil {A} (f : A -> bool) s : drop_while f s = [] -> forallb f s = true.
Proof. induction s as [|x s IH]; cbn; auto. destruct (f x); cbn; [auto|discriminate]. Qed.
Lemma drop_rest {A} (f : A -> bool) s x t : drop_while f s = x :: t -> f x = false.
Proof. induction s as [|y s IH]; cbn; [discriminate|]. destruct (f y) eqn:E; auto. now injection 1 as -> _. Qed.
Lemma blank_spaces s : blank s = true -> no_space s = [].
Proof.
  intros E. assert (D : str_strip s = []) by (unfold blank in E; destruct (str_strip s); [reflexivity|discriminate]). unfold str_strip in D. apply (f_equal (@rev N)) in D. rewrite rev_involutive in D. cbn in D. apply drop_nil in D.
  assert (L : str_lstrip s = []).
  { unfold str_lstrip in *. destruct (drop_while isspace_chr s) as [|x t] eqn:Ed; auto. exfalso. pose proof (drop_rest _ _ _ _ Ed) as X. rewrite forallb_forall in D. rewrite D in X; [discriminate|]. apply in_rev. rewrite rev_involutive. now left. }
  apply drop_nil in L. unfold no_space. clear -L. induction s as [|c s IH]; cbn in *; auto. apply andb_prop in L as [-> L]. cbn. auto.
Qed.
Lemma spaces_blank s : no_space s = [] -> blank s = true.
Proof.
  intros E. assert (F : forallb isspace_chr s = true) by (unfold no_space in E; clear -E; induction s as [|c s IH]; cbn [List.filter forallb] in *; auto; destruct (isspace_chr c); cbn [negb andb] in *; [auto|discriminate]).
  assert (D : drop_while isspace_chr s = []) by (clear -F; induction s as [|c s IH]; cbn [drop_while forallb] in *; auto; destruct (isspace_chr c); cbn [andb] in *; [auto|discriminate]).
  unfold blank, str_strip, str_lstrip. now rewrite D.
Qed.
Lemma indent_spaces level : no_space (indent_str level) = [].
Proof. unfold indent_str, no_space. cbn [List.filter]. change (negb (isspace_chr 10)) with false. cbn iota. induction (2 * level)%nat as [|n IH]; cbn [repeat List.filter]; auto. Qed.
Lemma indent_respaced level s : respaced s (if blank s then indent_str level else s).
Proof. destruct (blank s) eqn:E; [right|now left]. split; [now apply blank_spaces|apply indent_spaces]. Qed.
Lemma respaced_refl s : respaced s s. Proof. now left. Qed.
Lemma respaced_trans a b c : respaced a b -> respaced b c -> respaced a c.
Proof. unfold respaced. intros [->|[A B]] [->|[C D]]; auto. Qed.
Lemma respaced_same a b : respaced a b -> no_space a = no_space b.
Proof. intros [->|[-> ->]]; auto. Qed.
Lemma reindented_tail n n' t : reindented n n' -> respaced (n_tail n') t -> reindented n (set_tail t n').
Proof. intros [tag attrs text text' cs cs' tail tail' R F T E] H. cbn [n_tail set_tail] in *. constructor; auto. eapply respaced_trans; eauto. Qed.
Lemma reindented_last indent : no_space indent = [] -> forall l l', Forall2 reindented l l' -> Forall2 reindented l (fix_last indent l').
Proof.
  intros I l l' F. induction F as [|n n' l l' R F IH]; [constructor|]. cbn [fix_last]. destruct l' as [|m' l'].
  - inversion F; subst. constructor; [|constructor]. destruct (blank (n_tail n')) eqn:E; auto. apply reindented_tail; auto. right. split; [now apply blank_spaces|auto].
  - now constructor.
Qed.
Theorem indent_only n : forall level, reindented n (indent_node level n).
Proof.
  induction n as [tag attrs text cs tail IH] using node_induct. intros level. destruct cs as [|c cs].
  - cbn [indent_node]. constructor; [apply respaced_refl|constructor| |auto]. destruct (negb (Nat.eqb level 0)); cbn [andb]; [apply indent_respaced|apply respaced_refl].
  - change (reindented (Node tag attrs text (c :: cs) tail) (Node tag attrs (if blank text then indent_str level ++ u8 "  " else text) (fix_last (indent_str level) (map (indent_node (S level)) (c :: cs))) (if blank tail then indent_str level else tail))).
    constructor; [| |apply indent_respaced|discriminate].
    + destruct (blank text) eqn:E; [right|now left]. split; [now apply blank_spaces|]. rewrite no_space_app, indent_spaces. reflexivity.
    + apply reindented_last; [apply indent_spaces|]. generalize (c :: cs), IH. intros l F. induction F; cbn [map]; constructor; auto.
Qed.
Theorem reindented_text n : forall n', reindented n n' -> no_space (inner n) = no_space (inner n').
Proof.
  induction n as [tag attrs text cs tail IH] using node_induct. intros n' R. inversion R as [? ? ? text' ? cs' ? tail' R1 F R2 E]; subst. rewrite !inner_eq, !no_space_app. rewrite (respaced_same _ _ R1). f_equal.
  clear R R1 R2 E. induction F as [|c c' cs cs' Rc F IHf]; auto. inversion IH; subst. cbn [inners flat_map]. rewrite !no_space_app. f_equal; [|now apply IHf]. f_equal; [auto|]. inversion Rc; subst. cbn [n_tail]. now apply respaced_same.
Qed.
Theorem reindented_ids n : forall n', reindented n n' -> id_elements n = id_elements n'.
Proof.
  induction n as [tag attrs text cs tail IH] using node_induct. intros n' R. inversion R as [? ? ? text' ? cs' ? tail' R1 F R2 E]; subst. cbn [id_elements]. rewrite (respaced_same _ _ R1). f_equal.
  clear R R1 R2 E. induction F as [|c c' cs cs' Rc F IHf]; auto. inversion IH; subst. cbn [flat_map]. f_equal; auto.
Qed.

(** * The file *)
Lemma strip_tag s r : ~ In 62%N s -> strip_tags true (s ++ 62%N :: r) = strip_tags false r.
Proof. induction s as [|c s IH]; intros N; cbn [app strip_tags]; auto. replace (c =? 62)%N with false by (symmetry; apply N.eqb_neq; intros ->; apply N; now left). cbn [negb]. apply IH. intros I. apply N. now right. Qed.
Lemma strip_text s r : strip_tags false (flat_map esc_text s ++ r) = flat_map esc_text s ++ strip_tags false r.
Proof.
  induction s as [|c s IH]; auto. cbn [flat_map]. rewrite <- !app_assoc. unfold esc_text at 1 3. destruct (c =? 38)%N eqn:E1; [cbn -[flat_map]; now rewrite IH|]. destruct (c =? 60)%N eqn:E2; [cbn -[flat_map]; now rewrite IH|]. destruct (c =? 62)%N eqn:E3; [cbn -[flat_map]; now rewrite IH|].
  cbn [app strip_tags]. now rewrite E2, IH.
Qed.
Lemma attr_clean s : ~ In 62%N (flat_map esc_attr s).
Proof.
  intros I. apply in_flat_map in I as (c & _ & I). unfold esc_attr in I. destruct (c =? 38)%N; [vm_compute in I; decompose [or] I; try discriminate; auto|]. destruct (c =? 62)%N eqn:E; [vm_compute in I; decompose [or] I; try discriminate; auto|]. destruct (c =? 34)%N; [vm_compute in I; decompose [or] I; try discriminate; auto|].
  destruct I as [->|[]]. discriminate.
Qed.
Lemma attrs_clean attrs : Forall (fun kv : pystr * pystr => ~ In 62%N (fst kv)) attrs -> ~ In 62%N (flat_map (fun kv => u8 " " ++ fst kv ++ u8 "=""" ++ flat_map esc_attr (snd kv) ++ u8 """") attrs).
Proof.
  intros F I. apply in_flat_map in I as (kv & I & H). rewrite Forall_forall in F. specialize (F kv I). rewrite !in_app_iff in H. pose proof (attr_clean (snd kv)). destruct H as [H|[H|[H|[H|H]]]]; try tauto; vm_compute in H; decompose [or] H; try discriminate; auto.
Qed.
Definition serialized (tag : pystr) (attrs : list (pystr * pystr)) (text body tail : pystr) : pystr :=
  u8 "<" ++ tag ++ flat_map (fun kv => u8 " " ++ fst kv ++ u8 "=""" ++ flat_map esc_attr (snd kv) ++ u8 """") attrs ++ u8 ">" ++ flat_map esc_text text ++ body ++ (if mem_str tag html_empty then [] else u8 "</" ++ tag ++ u8 ">") ++ flat_map esc_text tail.
Lemma strip_node tag attrs text body tail r b : ~ In 62%N tag -> Forall (fun kv : pystr * pystr => ~ In 62%N (fst kv)) attrs -> (forall r, strip_tags false (body ++ r) = flat_map esc_text b ++ strip_tags false r) ->
  strip_tags false (serialized tag attrs text body tail ++ r) = flat_map esc_text (text ++ b ++ tail) ++ strip_tags false r.
Proof.
  intros T A B. unfold serialized. rewrite <- !app_assoc.
  match goal with |- strip_tags false (u8 "<" ++ ?s) = _ => change (strip_tags false (u8 "<" ++ s)) with (strip_tags true s) end.
  rewrite app_assoc. match goal with |- strip_tags true (?x ++ u8 ">" ++ ?s) = _ => change (x ++ u8 ">" ++ s) with (x ++ 62%N :: s) end. rewrite strip_tag by (rewrite in_app_iff; intros [I|I]; [contradiction|now apply attrs_clean in I]).
  rewrite strip_text, B, !flat_map_app, <- !app_assoc. do 2 f_equal. destruct (mem_str tag html_empty); [apply strip_text|]. rewrite <- !app_assoc.
  match goal with |- strip_tags false (u8 "</" ++ ?s) = _ => change (strip_tags false (u8 "</" ++ s)) with (strip_tags true s) end. match goal with |- strip_tags true (?x ++ u8 ">" ++ ?s) = _ => change (x ++ u8 ">" ++ s) with (x ++ 62%N :: s) end. rewrite strip_tag by auto. apply strip_text.
Qed.
Lemma strip_serialize n : clean_tags n -> forall r, strip_tags false (serialize n ++ r) = flat_map esc_text (inner n ++ n_tail n) ++ strip_tags false r.
Proof.
  induction n as [tag attrs text cs tail IH] using node_induct. intros C r. inversion C as [? ? ? ? ? T A F]; subst. rewrite inner_eq. cbn [n_tail]. rewrite <- app_assoc. apply (strip_node tag attrs text (flat_map serialize cs) tail r (inners cs)); auto.
  clear -IH F. induction cs as [|c cs IHc]; intros r; auto. inversion IH; inversion F; subst. cbn [flat_map inners]. rewrite <- app_assoc. match goal with H : clean_tags c -> _ |- _ => rewrite H by auto end. rewrite IHc by auto. fold (inners cs). now rewrite app_assoc, <- flat_map_app.
Qed.
Lemma unescape_text s r : unescape 0 (flat_map esc_text s ++ r) = s ++ unescape 0 r.
Proof.
  induction s as [|c s IH]; auto. cbn [flat_map]. rewrite <- !app_assoc. unfold esc_text at 1. destruct (c =? 38)%N eqn:E1; [apply N.eqb_eq in E1; subst c; cbn -[flat_map]; now rewrite IH|]. destruct (c =? 60)%N eqn:E2; [apply N.eqb_eq in E2; subst c; cbn -[flat_map]; now rewrite IH|]. destruct (c =? 62)%N eqn:E3; [apply N.eqb_eq in E3; subst c; cbn -[flat_map]; now rewrite IH|].
  cbn [app unescape]. now rewrite E1, IH.
Qed.
Theorem shown_serialize n : clean_tags n -> shown (serialize n) = inner n ++ n_tail n.
Proof.
  intros C. unfold shown. rewrite <- (app_nil_r (serialize n)). rewrite (strip_serialize n C). rewrite unescape_text. cbn. apply app_nil_r.
Qed.
