(* Parsers run forwards: what they make of texts of which the beginning is known. *)
From Verif Require Import PyBase PyBaseFacts UnicodeAlnum NumModel IdModel LineModel DateModel RefModel TreeModel StructModel SemModel GramModel GramSpec PegModel PegSpec PegSpec2 PegProofs PegProofs2.
From Coq Require Import Lia.
Local Open Scope Z_scope.

(** * Combinators *)

Lemma bind_yes {A B} (p : parser A) (f : A -> parser B) s x s' : p s = Some (x, s') -> p_bind p f s = f x s'.
Proof. unfold p_bind. now intros ->. Qed.
Lemma bind_no {A B} (p : parser A) (f : A -> parser B) s : p s = None -> p_bind p f s = None.
Proof. unfold p_bind. now intros ->. Qed.
Lemma or_yes {A} (p q : parser A) s x : p s = Some x -> (p <|> q) s = Some x.
Proof. unfold p_or. now intros ->. Qed.
Lemma or_no {A} (p q : parser A) s : p s = None -> (p <|> q) s = q s.
Proof. unfold p_or. now intros ->. Qed.
Lemma opt_yes {A} (p : parser A) s x r : p s = Some (x, r) -> p_opt p s = Some (Some x, r).
Proof. unfold p_opt. now intros ->. Qed.
Lemma opt_no {A} (p : parser A) s : p s = None -> p_opt p s = Some (None, s).
Proof. unfold p_opt. now intros ->. Qed.
Lemma map_yes {A B} (f : A -> B) p s x r : p s = Some (x, r) -> p_map f p s = Some (f x, r).
Proof. intros H. unfold p_map. now rewrite (bind_yes _ _ _ _ _ H). Qed.
Lemma map_no {A B} (f : A -> B) p s : p s = None -> p_map f p s = None.
Proof. apply bind_no. Qed.
Lemma span_yes {A} total (p : parser A) s x r : p (ws s) = Some (x, r) -> p_span total p s = Some ((x, (pos_of total (ws s), pos_of total r)), r).
Proof. unfold p_span. now intros ->. Qed.
Lemma span_no {A} total (p : parser A) s : p (ws s) = None -> p_span total p s = None.
Proof. unfold p_span. now intros ->. Qed.
Lemma many_no {A} (p : parser A) s : p s = None -> p_many p s = Some ([], s).
Proof. intros H. unfold p_many. destruct s as [|c s]; [reflexivity|]. cbn [length p_rounds]. now rewrite H. Qed.
Lemma many1_one {A} (p : parser A) s x r : p s = Some (x, r) -> p r = None -> p_many1 p s = Some ([x], r).
Proof. intros H N. unfold p_many1. rewrite (bind_yes _ _ _ _ _ H), (bind_yes _ _ _ _ _ (many_no _ _ N)). reflexivity. Qed.
Lemma many1_no {A} (p : parser A) s : p s = None -> p_many1 p s = None.
Proof. apply bind_no. Qed.

(** * Beginnings *)

(* the first character that is not white space *)
Definition lc (s : pystr) : N := hd 0%N (ws s).
Lemma lc_ws s : lc (ws s) = lc s.
Proof. unfold lc. now rewrite ws_idem. Qed.
Lemma lc_solid c s : isspace_chr c = false -> lc (c :: s) = c.
Proof. intros H. unfold lc. now rewrite ws_solid_head. Qed.
Lemma lc_space c s : isspace_chr c = true -> lc (c :: s) = lc s.
Proof. intros H. unfold lc, ws. cbn [drop_while]. now rewrite H. Qed.
Lemma tok_no a w s : lc s <> a -> p_tok (a :: w) s = None.
Proof.
  unfold lc, p_tok. destruct (ws s) as [|c t]; [reflexivity|]. cbn [hd after_prefix]. intros N.
  destruct (N.eqb_spec a c); [congruence|reflexivity].
Qed.
Lemma tok_yes w s : match w with c :: _ => isspace_chr c = false | [] => False end -> (is_name w = true -> name_goes_on s = false) -> p_tok w (w ++ s) = Some (w, s).
Proof.
  intros S N. unfold p_tok. destruct w as [|c w]; [destruct S|]. cbn [app]. rewrite ws_solid_head by exact S. change (c :: w ++ s) with ((c :: w) ++ s).
  assert (E : after_prefix (c :: w) ((c :: w) ++ s) = Some s) by now apply after_prefix_spec.
  rewrite E. destruct (is_name (c :: w)); [rewrite N by reflexivity|]; reflexivity.
Qed.
Lemma toks_no l s : Forall (fun w => match w with a :: _ => lc s <> a | [] => False end) l -> p_toks l s = None.
Proof.
  induction 1 as [|w l W _ IH]; [reflexivity|]. cbn [p_toks fold_right]. destruct w as [|a w]; [destruct W|]. rewrite or_no by now apply tok_no. exact IH.
Qed.
Lemma number_yes n s : digits n -> match s with c :: _ => c_09 c = false | [] => True end -> g_number (n ++ s) = Some (n, s).
Proof.
  intros [N D] S. assert (F : forallb c_09 n = true). { rewrite forallb_forall. rewrite Forall_forall in D. intros c H. apply D in H. unfold c_09. lia. }
  unfold g_number, p_rule. destruct n as [|c n]; [congruence|]. cbn [app]. rewrite ws_solid_head by (apply digit_space; cbn in F; lia).
  change (c :: n ++ s) with ((c :: n) ++ s). apply re_of_match. rewrite match_plus by discriminate. cbn [app]. cbn [forallb] in F. apply andb_prop in F as [F1 F2]. rewrite F1. f_equal.
  cbn [drop_while]. rewrite F1. clear - F2 S. induction n as [|d n IH]; cbn [app drop_while]; [destruct s as [|e s]; [reflexivity|]; cbn [drop_while]; now rewrite S|].
  cbn [forallb] in F2. apply andb_prop in F2 as [-> F2]. now apply IH.
Qed.
Lemma number_no s : c_09 (lc s) = false -> g_number s = None.
Proof. unfold lc, g_number, p_rule. rewrite re_plus. destruct (ws s) as [|c t]; [reflexivity|]. cbn [hd]. now intros ->. Qed.
Lemma suffixed_yes w e s : e <> [] -> forallb c_small e = true -> match s with c :: _ => c_small c = false | [] => True end -> p_suffixed w (w ++ e ++ s) = Some (w ++ e, s).
Proof.
  intros N F S. unfold p_suffixed. rewrite app_assoc. apply re_of_match. rewrite <- app_assoc. cbn [r_match].
  assert (E : after_prefix w (w ++ e ++ s) = Some (e ++ s)) by now apply after_prefix_spec. rewrite E.
  change (r_match (RPlus c_small) Some (e ++ s) = Some s). rewrite match_plus by discriminate. destruct e as [|c e]; [congruence|]. cbn [app]. cbn [forallb] in F. apply andb_prop in F as [F1 F2]. rewrite F1. f_equal.
  cbn [drop_while]. rewrite F1. clear - F2 S. induction e as [|d n IH]; cbn [app drop_while]; [destruct s as [|x s]; [reflexivity|]; cbn [drop_while]; now rewrite S|].
  cbn [forallb] in F2. apply andb_prop in F2 as [-> F2]. now apply IH.
Qed.
Lemma suffixed_no a w s : match s with c :: _ => c <> a | [] => True end -> p_suffixed (a :: w) s = None.
Proof.
  intros H. unfold p_suffixed, p_re. cbn [r_match]. destruct s as [|c s]; [reflexivity|]. cbn [after_prefix]. destruct (N.eqb_spec a c); [congruence|reflexivity].
Qed.
Lemma suffixed_short w s : match s with c :: _ => c_small c = false | [] => True end -> p_suffixed w (w ++ s) = None.
Proof.
  intros H. unfold p_suffixed, p_re. cbn [r_match]. assert (E : after_prefix w (w ++ s) = Some s) by now apply after_prefix_spec. rewrite E.
  change (match r_match (RPlus c_small) Some s with Some t => Some (firstn (length (w ++ s) - length t) (w ++ s), t) | None => None end = None).
  rewrite match_plus by discriminate. destruct s as [|c s]; [reflexivity|]. now rewrite H.
Qed.
Lemma hun_small_b c : hun_small c -> c_small c = true.
Proof.
  unfold hun_small, is_small, c_small, c_az. intros [H|H]; [apply orb_true_iff; left; lia|]. apply orb_true_iff. right. now apply in_str_in.
Qed.
Lemma smalls_b e : Forall hun_small e -> forallb c_small e = true.
Proof. intros H. rewrite forallb_forall. rewrite Forall_forall in H. intros c C. apply hun_small_b. auto. Qed.
(* a unit with its ending *)
Lemma unit_yes w e s : match w with c :: _ => isspace_chr c = false | [] => False end -> ending e ->
  match s with c :: _ => c_small c = false /\ isalnum_chr c = false | [] => True end ->
  exists x, p_rule (p_suffixed w <|> p_tok w) (w ++ e ++ s) = Some (x, s).
Proof.
  intros W E S. exists (w ++ e). unfold p_rule. destruct w as [|a w]; [destruct W|]. cbn [app]. rewrite ws_solid_head by exact W.
  change (a :: w ++ e ++ s) with ((a :: w) ++ e ++ s). destruct e as [|c e].
  - cbn [app]. change (a :: w ++ s) with ((a :: w) ++ s). rewrite or_no by (apply suffixed_short; destruct s; [exact I|apply S]). rewrite app_nil_r. apply tok_yes; [exact W|]. intros _. destruct s as [|c s]; [reflexivity|apply S].
  - apply or_yes. apply (suffixed_yes (a :: w) (c :: e) s); [discriminate|now apply smalls_b|destruct s; [exact I|apply S]].
Qed.
Lemma unit_no a w s : lc s <> a -> p_rule (p_suffixed (a :: w) <|> p_tok (a :: w)) s = None.
Proof.
  intros H. unfold p_rule. rewrite or_no; [apply tok_no; now rewrite lc_ws|]. apply suffixed_no. unfold lc in H. destruct (ws s); [exact I|exact H].
Qed.
