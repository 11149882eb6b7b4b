From Coq Require Import Lia.
From Coq Require Import ZifyBool ZifyNat ZifyN.
From Verif Require Import PyBase PyBaseFacts NumModel IdModel GramModel PegModel.
Local Open Scope Z_scope.

(** * Combinators *)

Lemma bind_inv {A B} (p : parser A) (f : A -> parser B) s y r : p_bind p f s = Some (y, r) ->
  exists x s', p s = Some (x, s') /\ f x s' = Some (y, r).
Proof. unfold p_bind. destruct (p s) as [[x s']|]; [eauto|discriminate]. Qed.
Lemma or_inv {A} (p q : parser A) s x r : (p <|> q) s = Some (x, r) -> p s = Some (x, r) \/ (p s = None /\ q s = Some (x, r)).
Proof. unfold p_or. destruct (p s) as [[]|]; auto. Qed.
Lemma opt_inv {A} (p : parser A) s o r : p_opt p s = Some (o, r) ->
  (exists x, o = Some x /\ p s = Some (x, r)) \/ (o = None /\ r = s /\ p s = None).
Proof. unfold p_opt. destruct (p s) as [[x s']|]; intros [= <- <-]; eauto. Qed.
Lemma ret_inv {A} (x : A) s y r : p_ret x s = Some (y, r) -> y = x /\ r = s.
Proof. now intros [= <- <-]. Qed.
Lemma map_inv {A B} (f : A -> B) (p : parser A) s y r : p_map f p s = Some (y, r) -> exists x, p s = Some (x, r) /\ y = f x.
Proof. intros H. apply bind_inv in H as (x & s' & E & H). apply ret_inv in H as [-> ->]. eauto. Qed.
Lemma not_inv {A} (p : parser A) s x r : p_not p s = Some (x, r) -> r = s /\ p s = None.
Proof. unfold p_not. destruct (p s) as [|]; [discriminate|]. now intros [= _ <-]. Qed.
Lemma and_inv {A} (p : parser A) s x r : p_and p s = Some (x, r) -> r = s /\ p s <> None.
Proof. unfold p_and. destruct (p s) as [|]; [|discriminate]. intros [= _ <-]. split; [reflexivity|discriminate]. Qed.

(** * What is left *)

Definition suf (s r : pystr) : Prop := exists w, s = w ++ r.
Definition solid (s r : pystr) : Prop := exists w c, s = w ++ c :: r /\ isspace_chr c = false.
Lemma suf_refl s : suf s s.
Proof. now exists []. Qed.
Lemma suf_trans a b c : suf a b -> suf b c -> suf a c.
Proof. intros [u ->] [v ->]. exists (u ++ v). now rewrite app_assoc. Qed.
Lemma solid_suf a b : solid a b -> suf a b.
Proof. intros (w & c & -> & _). exists (w ++ [c]). now rewrite <- app_assoc. Qed.
Lemma suf_solid a b c : suf a b -> solid b c -> solid a c.
Proof. intros [u ->] (w & x & -> & H). exists (u ++ w), x. now rewrite <- app_assoc. Qed.
Lemma suf_length a b : suf a b -> (length b <= length a)%nat.
Proof. intros [w ->]. rewrite app_length. lia. Qed.
Lemma solid_length a b : solid a b -> (length b < length a)%nat.
Proof. intros (w & c & -> & _). rewrite app_length. cbn. lia. Qed.
Lemma suf_nil s : suf s [].
Proof. exists s. now rewrite app_nil_r. Qed.
Lemma suf_cons c s r : suf s r -> suf (c :: s) r.
Proof. intros [w ->]. now exists (c :: w). Qed.

Definition takes {A} (p : parser A) : Prop := forall s x r, p s = Some (x, r) -> suf s r.
Definition ends {A} (p : parser A) : Prop := forall s x r, p s = Some (x, r) -> solid s r.

Lemma ws_suf s : suf s (ws s).
Proof. exists (take_while isspace_chr s). symmetry. apply take_drop_while. Qed.
Lemma ws_head s c t : ws s = c :: t -> isspace_chr c = false.
Proof.
  unfold ws. induction s as [|x s IH]; [discriminate|]. cbn [drop_while]. destruct (isspace_chr x) eqn:E; [exact IH|]. now intros [= <- _].
Qed.
Lemma ws_idem s : ws (ws s) = ws s.
Proof. destruct (ws s) as [|c t] eqn:E; [reflexivity|]. unfold ws at 1. cbn [drop_while]. now rewrite (ws_head _ _ _ E). Qed.
Lemma ws_solid_head c t : isspace_chr c = false -> ws (c :: t) = c :: t.
Proof. intros H. unfold ws. cbn [drop_while]. now rewrite H. Qed.
Lemma after_prefix_spec w : forall s r, after_prefix w s = Some r <-> s = w ++ r.
Proof.
  induction w as [|c w IH]; intros s r; [cbn; split; [intros [= ->]; reflexivity|intros ->; reflexivity]|].
  destruct s as [|d s]; cbn [after_prefix app]; [split; discriminate|].
  destruct (N.eqb_spec c d) as [->|N]; [rewrite IH; split; [intros ->; reflexivity|now intros [= ->]]|].
  split; [discriminate|]. intros [= -> _]. now destruct N.
Qed.

Lemma takes_ends {A} (p : parser A) : ends p -> takes p.
Proof. intros H s x r E. apply solid_suf. eauto. Qed.
Lemma takes_ret {A} (x : A) : takes (p_ret x).
Proof. intros s y r H. apply ret_inv in H as [_ ->]. apply suf_refl. Qed.
Lemma takes_bind {A B} (p : parser A) (f : A -> parser B) : takes p -> (forall x, takes (f x)) -> takes (p_bind p f).
Proof. intros P F s x r H. apply bind_inv in H as (y & s' & E & H). eapply suf_trans; [eapply P|eapply F]; eauto. Qed.
Lemma ends_bind {A B} (p : parser A) (f : A -> parser B) : takes p -> (forall x, ends (f x)) -> ends (p_bind p f).
Proof. intros P F s x r H. apply bind_inv in H as (y & s' & E & H). eapply suf_solid; [eapply P|eapply F]; eauto. Qed.
(* the last thing read before something that reads nothing *)
Lemma ends_bind_ret {A B} (p : parser A) (f : A -> B) : ends p -> ends (p_bind p (fun x => p_ret (f x))).
Proof. intros P s x r H. apply bind_inv in H as (y & s' & E & H). apply ret_inv in H as [_ ->]. eauto. Qed.
Lemma solid_trans_suf {A} (p : parser A) s x r : takes p -> p s = Some (x, r) -> suf s r.
Proof. intros P H. exact (P _ _ _ H). Qed.
Lemma takes_or {A} (p q : parser A) : takes p -> takes q -> takes (p <|> q).
Proof. intros P Q s x r H. apply or_inv in H as [H|[_ H]]; eauto. Qed.
Lemma ends_or {A} (p q : parser A) : ends p -> ends q -> ends (p <|> q).
Proof. intros P Q s x r H. apply or_inv in H as [H|[_ H]]; eauto. Qed.
Lemma takes_opt {A} (p : parser A) : takes p -> takes (p_opt p).
Proof. intros P s x r H. apply opt_inv in H as [(y & _ & H)|(_ & -> & _)]; [eauto|apply suf_refl]. Qed.
Lemma takes_map {A B} (f : A -> B) p : takes p -> takes (p_map f p).
Proof. intros P. apply takes_bind; [exact P|]. intros x. apply takes_ret. Qed.
Lemma ends_map {A B} (f : A -> B) p : ends p -> ends (p_map f p).
Proof. apply ends_bind_ret. Qed.
Lemma rounds_suf {A} (p : parser A) : takes p -> forall n s l r, p_rounds n p s = (l, r) -> suf s r.
Proof.
  intros P. induction n as [|n IH]; intros s l r; cbn [p_rounds]; [intros [= _ <-]; apply suf_refl|].
  destruct (p s) as [[x s']|] eqn:E; [|intros [= _ <-]; apply suf_refl].
  destruct (p_rounds n p s') as [l' r'] eqn:R. intros [= _ <-]. eapply suf_trans; [eapply P; eauto|eauto].
Qed.
Lemma takes_many {A} (p : parser A) : takes p -> takes (p_many p).
Proof. intros P s x r [= H]. eapply rounds_suf; eauto. Qed.
Lemma takes_many1 {A} (p : parser A) : takes p -> takes (p_many1 p).
Proof. intros P. apply takes_bind; [exact P|]. intros x. apply takes_bind; [now apply takes_many|]. intros l. apply takes_ret. Qed.
Lemma takes_not {A} (p : parser A) : takes (p_not p).
Proof. intros s x r H. apply not_inv in H as [-> _]. apply suf_refl. Qed.
Lemma takes_and {A} (p : parser A) : takes (p_and p).
Proof. intros s x r H. apply and_inv in H as [-> _]. apply suf_refl. Qed.
Lemma takes_rule {A} (p : parser A) : takes p -> takes (p_rule p).
Proof. intros P s x r H. eapply suf_trans; [apply ws_suf|eapply P; exact H]. Qed.
Lemma ends_rule {A} (p : parser A) : ends p -> ends (p_rule p).
Proof. intros P s x r H. eapply suf_solid; [apply ws_suf|eapply P; exact H]. Qed.

Definition solid_word (w : pystr) : bool := match rev w with c :: _ => negb (isspace_chr c) | [] => false end.
Lemma tok_inv w s x r : p_tok w s = Some (x, r) -> x = w /\ ws s = w ++ r /\ (is_name w = true -> name_goes_on r = false).
Proof.
  unfold p_tok. destruct (after_prefix w (ws s)) as [t|] eqn:E; [|discriminate]. apply after_prefix_spec in E.
  destruct (is_name w && name_goes_on t) eqn:G; [discriminate|]. intros [= <- <-]. repeat split; [exact E|].
  intros N. rewrite N in G. exact G.
Qed.
Lemma solid_word_app w r : solid_word w = true -> solid (w ++ r) r.
Proof.
  unfold solid_word. destruct (rev w) as [|c u] eqn:E; [discriminate|]. intros H. apply (f_equal (@rev _)) in E. rewrite rev_involutive in E.
  cbn [rev] in E. subst w. exists (rev u), c. rewrite <- app_assoc. split; [reflexivity|]. now destruct (isspace_chr c).
Qed.
Lemma ends_tok w : solid_word w = true -> ends (p_tok w).
Proof.
  intros W s x r H. apply tok_inv in H as (_ & E & _). eapply suf_solid; [apply ws_suf|]. rewrite E. now apply solid_word_app.
Qed.
Lemma toks_inv l : forall s x r, p_toks l s = Some (x, r) -> exists w, In w l /\ p_tok w s = Some (x, r).
Proof.
  induction l as [|w l IH]; intros s x r H; [discriminate|]. cbn [p_toks fold_right] in H. apply or_inv in H as [H|[_ H]].
  - exists w. split; [now left|exact H].
  - destruct (IH _ _ _ H) as (v & Hv & V). exists v. split; [now right|exact V].
Qed.
Lemma ends_toks l : forallb solid_word l = true -> ends (p_toks l).
Proof.
  intros W s x r H. apply toks_inv in H as (w & Hw & H). rewrite forallb_forall in W. eapply ends_tok; eauto.
Qed.

(** * Patterns *)

Lemma r_match_suf r : forall k s u, (forall t u, k t = Some u -> suf t u) -> r_match r k s = Some u -> suf s u.
Proof.
  induction r as [f|f|f|f|w|a IHa b IHb|a IHa b IHb]; intros k s u K H; cbn [r_match] in H.
  - destruct s as [|c t]; [discriminate|]. destruct (f c); [|discriminate]. apply suf_cons. eauto.
  - revert u H. induction s as [|c t IH]; intros u H; [eauto|]. destruct (f c); [|eauto].
    destruct ((fix go (s : pystr) : option pystr := match s with [] => k s | c0 :: t0 => if f c0 then match go t0 with Some x => Some x | None => k s end else k s end) t) as [x|] eqn:E; [|eauto].
    injection H as <-. apply suf_cons. eauto.
  - revert u H. induction s as [|c t IH]; intros u H; [discriminate|]. destruct (f c); [|discriminate].
    destruct ((fix go (s : pystr) : option pystr := match s with [] => None | c0 :: t0 => if f c0 then match go t0 with Some x => Some x | None => k t0 end else None end) t) as [x|] eqn:E; [|apply suf_cons; eauto].
    injection H as <-. apply suf_cons. eauto.
  - destruct s as [|c t]; [eauto|]. destruct (f c); [|eauto]. destruct (k t) as [x|] eqn:E; [|eauto].
    injection H as <-. apply suf_cons. eauto.
  - destruct (after_prefix w s) as [t|] eqn:E; [|discriminate]. apply after_prefix_spec in E. eapply suf_trans; [exists w; exact E|eauto].
  - eapply IHa; [|exact H]. intros t v V. eapply IHb; eauto.
  - destruct (r_match a k s) as [x|] eqn:E; [injection H as <-|]; eauto.
Qed.
Lemma re_inv r s x t : p_re r s = Some (x, t) -> s = x ++ t /\ r_match r Some s = Some t.
Proof.
  unfold p_re. destruct (r_match r Some s) as [u|] eqn:E; [|discriminate]. intros [= <- <-].
  assert (S : suf s u). { eapply r_match_suf; [|exact E]. intros a b [= ->]. apply suf_refl. }
  destruct S as [w ->]. split; [|reflexivity]. rewrite app_length, Nat.add_sub, firstn_app, firstn_all, Nat.sub_diag. cbn. now rewrite app_nil_r.
Qed.
Lemma takes_re r : takes (p_re r).
Proof. intros s x t H. apply re_inv in H as [-> _]. now exists x. Qed.
Lemma re_of_match r w t : r_match r Some (w ++ t) = Some t -> p_re r (w ++ t) = Some (w, t).
Proof. intros H. unfold p_re. rewrite H, app_length, Nat.add_sub, firstn_app, firstn_all, Nat.sub_diag. cbn. now rewrite app_nil_r. Qed.

Lemma match_plus f k s : (forall t, k t <> None) -> r_match (RPlus f) k s =
  match s with c :: _ => if f c then k (drop_while f s) else None | [] => None end.
Proof.
  intros K. cbn [r_match]. induction s as [|c t IH]; [reflexivity|]. destruct (f c) eqn:F; [|reflexivity]. rewrite IH.
  destruct t as [|d t]; [cbn [drop_while]; rewrite F; reflexivity|]. cbn [drop_while]. rewrite F. destruct (f d) eqn:G; [|reflexivity].
  destruct (k (drop_while f t)) eqn:E; [reflexivity|]. now apply K in E.
Qed.
Lemma match_star f k s : (forall t, k t <> None) -> r_match (RStar f) k s = k (drop_while f s).
Proof.
  intros K. cbn [r_match]. induction s as [|c t IH]; [reflexivity|]. cbn [drop_while]. destruct (f c) eqn:F; [|reflexivity]. rewrite IH.
  destruct (k (drop_while f t)) eqn:E; [reflexivity|]. now apply K in E.
Qed.
Lemma re_plus f s : p_re (RPlus f) s = match s with c :: _ => if f c then Some (take_while f s, drop_while f s) else None | [] => None end.
Proof.
  unfold p_re. rewrite match_plus by discriminate. destruct s as [|c t]; [reflexivity|]. destruct (f c) eqn:F; [|reflexivity].
  f_equal. f_equal. set (s := c :: t). rewrite <- (take_drop_while f s) at 1 3. rewrite app_length, Nat.add_sub, firstn_app, firstn_all, Nat.sub_diag.
  cbn. now rewrite app_nil_r.
Qed.
Lemma re_star f s : p_re (RStar f) s = Some (take_while f s, drop_while f s).
Proof.
  unfold p_re. rewrite match_star by discriminate. f_equal. f_equal. rewrite <- (take_drop_while f s) at 1 3.
  rewrite app_length, Nat.add_sub, firstn_app, firstn_all, Nat.sub_diag. cbn. now rewrite app_nil_r.
Qed.
Lemma re_set f s : p_re (RSet f) s = match s with c :: t => if f c then Some ([c], t) else None | [] => None end.
Proof.
  unfold p_re. cbn [r_match]. destruct s as [|c t]; [reflexivity|]. destruct (f c); [|reflexivity]. f_equal. f_equal.
  cbn [length]. rewrite Nat.sub_succ_l by lia. rewrite Nat.sub_diag. reflexivity.
Qed.
Lemma take_while_all {A} (f : A -> bool) s : forallb f (take_while f s) = true.
Proof. induction s as [|c s IH]; [reflexivity|]. cbn. destruct (f c) eqn:F; [cbn; now rewrite F|reflexivity]. Qed.
Lemma drop_while_stop {A} (f : A -> bool) s : match drop_while f s with c :: _ => f c = false | [] => True end.
Proof. induction s as [|c s IH]; [exact I|]. cbn. destruct (f c) eqn:F; [exact IH|exact F]. Qed.
Lemma plus_inv f s x r : p_re (RPlus f) s = Some (x, r) -> s = x ++ r /\ x <> [] /\ forallb f x = true /\ match r with c :: _ => f c = false | [] => True end.
Proof.
  rewrite re_plus. destruct s as [|c t] eqn:S; [discriminate|]. rewrite <- S. destruct (f c) eqn:F; [|discriminate]. intros [= <- <-].
  split; [now rewrite take_drop_while|]. split; [subst s; cbn; now rewrite F|]. split; [apply take_while_all|apply drop_while_stop].
Qed.
Lemma ends_plus f : (forall c, f c = true -> isspace_chr c = false) -> ends (p_re (RPlus f)).
Proof.
  intros F s x r H. apply plus_inv in H as (-> & N & A & _). destruct (exists_last N) as (w & c & ->).
  exists w, c. rewrite <- app_assoc. split; [reflexivity|]. apply F. rewrite forallb_app in A. cbn in A. lia.
Qed.
Lemma ends_set f : (forall c, f c = true -> isspace_chr c = false) -> ends (p_re (RSet f)).
Proof.
  intros F s x r H. rewrite re_set in H. destruct s as [|c t]; [discriminate|]. destruct (f c) eqn:E; [|discriminate].
  injection H as <- <-. exists [], c. auto.
Qed.
