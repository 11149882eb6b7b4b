(* What follows from the lines writing an element. *)
From Coq Require Import Lia Sorted.
From Coq Require Import ZifyBool ZifyNat ZifyN.
From Verif Require Import PyBase PyBaseFacts NumModel IdModel LineModel DateModel RefModel TreeModel FixupModel StructModel.
From Verif Require Import NumSpec IdSpec LineSpec RefSpec TreeSpec FixupSpec StructSpec NumProofs IdProofs LineProofs TreeProofs FixupProofs StructPatterns StructProofs.
Local Open Scope Z_scope.

Scheme element_ind' := Minimality for element Sort Prop
  with parts_ind' := Minimality for parts Sort Prop
  with elements_ind' := Minimality for elements Sort Prop.
Combined Scheme element_mutind from element_ind', parts_ind', elements_ind'.

(** * Numbering *)

Lemma digits_take d r : ascii_digits d -> (forall c, hd_error r = Some c -> is_ascii_digit c = false) ->
  take_while is_ascii_digit (d ++ r) = d.
Proof.
  intros D R. apply take_while_app; [now apply forallb_ascii|]. destruct r as [|c r]; [exact I|]. now apply R.
Qed.
Lemma numbered_unique a n l m j : numbered a n l -> numbered a m j -> n = m /\ l = j.
Proof.
  intros H1 H2. apply numbered_digits in H1 as (d & D & _ & <- & R & L).
  apply numbered_digits in H2 as (e & E & _ & <- & R' & L'). rewrite R in R'.
  assert (X : forall l, (forall c, l = Some c -> small_letter c) -> forall c, hd_error (letter_of l) = Some c -> is_ascii_digit c = false).
  { intros [x|] Y c; [|discriminate]. cbn. intros [= <-]. specialize (Y x eq_refl). unfold small_letter in Y. unfold is_ascii_digit. lia. }
  pose proof (f_equal (take_while is_ascii_digit) R') as T. rewrite !digits_take in T by eauto. subst e.
  apply app_inv_head in R'. split; [reflexivity|]. destruct l, j; cbn in R'; congruence.
Qed.

Definition id_lt (k : sae_kind) (a b : pystr) : Prop :=
  (is_numeric_kind k /\ exists n l m j, numbered a n l /\ numbered b m j /\ key_lt (n, l) (m, j)) \/
  (~ is_numeric_kind k /\ str_ltb a b = true).
Lemma follows_in_In l a b : follows_in l a b -> In a l /\ In b l.
Proof.
  intros (x & y & z & -> & _). split; apply in_or_app; right; [now left|]. right. apply in_or_app. right. now left.
Qed.
Lemma follows_lt k a b : follows k a b -> id_lt k a b.
Proof.
  intros [k' a' b' n l m j N A B S|k' a' b' K F|p x L].
  - left. split; [exact N|]. exists n, l, m, j. split; [exact A|]. split; [exact B|]. now apply successor_key_lt.
  - right. split; [intros [E|[E|E]]; destruct K as [K|[K _]]; congruence|]. apply letters_lt.
    pose proof (follows_in_In _ _ _ F) as []. now apply (letters_both list_alphabet (or_introl eq_refl)).
  - right. split; [intros [E|[E|E]]; discriminate|]. cbn. rewrite N.eqb_refl. destruct (N.eqb_spec x (x + 1)); lia.
Qed.
Lemma id_lt_irrefl k a : ~ id_lt k a a.
Proof.
  intros [(_ & n & l & m & j & A & B & L)|(_ & L)]; [|now rewrite str_ltb_irrefl in L].
  destruct (numbered_unique _ _ _ _ _ A B) as [-> ->]. now apply key_lt_irrefl in L.
Qed.
Lemma id_lt_trans k a b c : id_lt k a b -> id_lt k b c -> id_lt k a c.
Proof.
  intros [(K & n & l & m & j & A & B & L)|(K & L)] [(K' & n' & l' & m' & j' & A' & B' & L')|(K' & L')]; try contradiction.
  - left. split; [exact K|]. destruct (numbered_unique _ _ _ _ _ B A') as [<- <-]. exists n, l, m', j'. split; [exact A|]. split; [exact B'|]. eapply key_lt_trans; eauto.
  - right. split; [exact K|]. eapply str_ltb_trans; eauto.
Qed.

Lemma numbered_above k i es : numbered_from k i es ->
  forall a, id_lt k a i -> Forall (fun e => exists b, s_identifier e = Some b /\ id_lt k a b) es.
Proof.
  induction 1 as [i e K I|i j e es K I F H IH]; intros a L.
  - constructor; [eauto|constructor].
  - constructor; [eauto|]. apply IH. eapply id_lt_trans; [exact L|]. now apply follows_lt.
Qed.
Lemma numbered_nodup k i es : numbered_from k i es -> NoDup (map s_identifier es).
Proof.
  induction 1 as [i e K I|i j e es K I F H IH]; cbn; [constructor; [intros []|constructor]|].
  constructor; [|exact IH]. intros X. apply in_map_iff in X as (e' & E & X).
  pose proof (numbered_above _ _ _ H i (follows_lt _ _ _ F)) as A. rewrite Forall_forall in A.
  destruct (A _ X) as (b & B & L). rewrite E, I in B. injection B as <-. now apply id_lt_irrefl in L.
Qed.

Definition all_numbered (s : sae) : Prop := well_numbered s /\ forall x, inside_sae (ChSae x) s -> well_numbered x.

Lemma all_numbered_text k i t m : all_numbered (mk_sae k i (Some t) None None None m).
Proof.
  split; [intros cs; discriminate|]. intros x H. inversion H as [? ? ? E|? ? ? ? E]; discriminate.
Qed.

Lemma elements_numbering :
  (forall k ls s, element k ls s -> s_kind s = k /\ all_numbered s) /\
  (forall k i ls cs w, parts k i ls cs w ->
     (exists bs, cs = map ChQuoted bs) \/
     (exists ck first es, cs = map ChSae es /\ child_list k i ck first /\ numbered_from ck first es /\
        (2 <= List.length es)%nat /\ Forall all_numbered es)) /\
  (forall k i ls es w, elements k i ls es w -> numbered_from k i es /\ Forall all_numbered es).
Proof.
  apply element_mutind.
  - intros k i l0 l1 ls t _ _. split; [reflexivity|]. apply all_numbered_text.
  - intros k i l0 l1 ls intro t rest cs w _ _ _ _ _ _ IH. split; [reflexivity|].
    destruct IH as [[bs ->]|(ck & first & es & -> & C & N & L & A)].
    + split; [intros cs [= <-]; left; eauto|]. intros x H.
      inversion H as [? ? ? E I|? ? d ? E I D]; injection E as <-; apply in_map_iff in I as (b & Eb & I); subst; [discriminate|inversion D].
    + split.
      * intros cs [= <-]. right. exists ck, first, es. split; [reflexivity|]. split; [exact C|]. split; [exact N|]. split; [|exact L].
        eapply numbered_nodup; eauto.
      * rewrite Forall_forall in A. intros x H. inversion H as [? ? ? E I|? ? d ? E I D]; injection E as <-; apply in_map_iff in I as (b & Eb & I); subst.
        -- injection Eb as ->. now apply A.
        -- inversion D; subst. apply A in I. now apply I.
  - intros k i ck first ls es w C _ [N A] L. right. exists ck, first, es. auto.
  - intros i ls bs w _ _. left. eauto.
  - intros k i ls kept e w _ _ [K A] I. split; [now constructor|]. now constructor.
  - intros k i j group ls e es w _ [K A] I _ F _ [N B]. split; [eapply numbered_more; eauto|]. now constructor.
Qed.

(** * Nothing is lost *)

Lemma ink_app a b : ink (a ++ b) = ink a ++ ink b.
Proof. apply filter_app. Qed.
Lemma joined_ink ls t : joined ls t -> ink t = ink (concat ls).
Proof.
  intros H. apply joined_nonspace in H. unfold ink. rewrite H. clear H. induction ls as [|s ls IH]; [reflexivity|].
  cbn. now rewrite filter_app, IH.
Qed.
Lemma whole_text_app a b : whole_text (a ++ b) = whole_text a ++ whole_text b.
Proof. apply flat_map_app. Qed.
Lemma whole_text_cons l ls : whole_text (l :: ls) = l_content l ++ whole_text ls.
Proof. reflexivity. Qed.
Lemma picks_whole ls r : without_blanks ls r -> whole_text ls = whole_text r.
Proof.
  induction 1 as [|l ls r N H IH|l ls r N H IH]; [reflexivity| |]; rewrite ?whole_text_cons, IH; [reflexivity|].
  assert (B : blank l) by (unfold blank in *; destruct (l_parts l); [reflexivity|exfalso; apply N; discriminate]).
  now rewrite (blank_content _ B).
Qed.
Lemma concat_map_whole ls : concat (map l_content ls) = whole_text ls.
Proof. unfold whole_text. now rewrite flat_map_concat_map. Qed.
Lemma text_in_ink ls t : text_in ls t -> ink t = ink (whole_text ls).
Proof. intros (r & P & J). rewrite (picks_whole _ _ P), (joined_ink _ _ J), concat_map_whole. reflexivity. Qed.

Definition wrap_text (w : option pystr) : pystr := match w with Some w => w | None => [] end.
Lemma blanks_whole ls : Forall blank ls -> whole_text ls = [].
Proof. induction 1 as [|l ls B H IH]; [reflexivity|]. now rewrite whole_text_cons, (blank_content _ B), IH. Qed.
Lemma quoted_ink q ls bs w : quoted_blocks_in q ls bs w ->
  exists t, spoken_children (map ChQuoted bs) t /\ ink (t ++ wrap_text w) = ink (whole_text ls).
Proof.
  induction 1 as [q ls B|q bl l ls t B NB O T|q bl b b' ls bs w B Q BL H (t & S & E)].
  - exists []. split; [constructor|]. now rewrite (blanks_whole _ B).
  - exists []. split; [constructor|]. rewrite whole_text_app, (blanks_whole _ B). cbn [app wrap_text]. now apply text_in_ink.
  - rewrite !whole_text_app, (blanks_whole _ B). cbn [app].
    assert (X : exists c, opens c /\ whole_text b = c :: whole_text b' ++ [8221%N]).
    { destruct BL as [l l' c O C|l l' mid e e' c O C N M C' Q']; exists c; (split; [exact O|]).
      - rewrite !whole_text_cons, C. cbn. now rewrite app_nil_r, app_nil_r.
      - rewrite !whole_text_cons, !whole_text_app, !whole_text_cons, C, C'. cbn. now rewrite !app_nil_r, <- !app_assoc. }
    destruct X as (c & O & X). exists (c :: whole_text b' ++ [8221%N] ++ t). split; [now constructor|].
    rewrite X. transitivity (ink ((c :: whole_text b' ++ [8221%N]) ++ (t ++ wrap_text w))).
    + f_equal. cbn. now rewrite <- !app_assoc.
    + now rewrite ink_app, E, <- ink_app.
Qed.
Lemma last_lines_ink k ls kept w : last_lines k ls kept w -> ink (whole_text ls) = ink (whole_text kept ++ wrap_text w).
Proof.
  intros [k' ls' _|k' ls' kept' P|k' ls' kept' wrap t _ _ P _ _ J]; cbn [wrap_text].
  - now rewrite app_nil_r.
  - now rewrite app_nil_r, (picks_whole _ _ P).
  - rewrite (picks_whole _ _ P), whole_text_app, !ink_app. f_equal.
    now rewrite (joined_ink _ _ J), concat_map_whole.
Qed.

Lemma elements_ink :
  (forall k ls s, element k ls s -> exists t, spoken s t /\ ink t = ink (whole_text ls)) /\
  (forall k i ls cs w, parts k i ls cs w -> exists t, spoken_children cs t /\ ink (t ++ wrap_text w) = ink (whole_text ls)) /\
  (forall k i ls es w, elements k i ls es w ->
     exists t, spoken_children (map ChSae es) t /\ ink (t ++ wrap_text w) = ink (whole_text ls)).
Proof.
  assert (HD : forall k i l0 l1, headed k i l0 l1 -> l_content l0 = match i with Some i => header k i | None => [] end ++ l_content l1).
  { intros k [i|] l0 l1 H; [exact H|]. now destruct H. }
  apply element_mutind.
  - intros k i l0 l1 ls t H T. eexists. split; [constructor|].
    rewrite whole_text_cons, (HD _ _ _ _ H), <- app_assoc, !ink_app, (text_in_ink _ _ T), whole_text_cons, ink_app. reflexivity.
  - intros k i l0 l1 ls intro t rest cs w H E _ T _ _ (u & U & V). eexists. split; [now apply spoken_parts, U|].
    rewrite whole_text_cons, (HD _ _ _ _ H), <- app_assoc, <- whole_text_cons, E, whole_text_app, !ink_app.
    rewrite (text_in_ink _ _ T), <- V, ink_app. reflexivity.
  - intros k i ck first ls es w _ _ IH _. exact IH.
  - intros i ls bs w H _. eapply quoted_ink, H.
  - intros k i ls kept e w L _ (t & S & E) _. exists (t ++ []). split; [cbn; constructor; [exact S|constructor]|].
    rewrite app_nil_r, (last_lines_ink _ _ _ _ L), !ink_app, E. reflexivity.
  - intros k i j group ls e es w _ (t & S & E) _ _ _ _ (u & U & V). exists (t ++ u). split; [cbn; now constructor|].
    rewrite <- app_assoc, whole_text_app, !ink_app, E. f_equal. now rewrite <- ink_app.
Qed.

(** * Nothing starts inside quotes *)

Definition quote_free (s : pystr) : Prop := opening s - closing s = 0.
Lemma quote_free_app a b : quote_free a -> quote_free b -> quote_free (a ++ b).
Proof. unfold quote_free. rewrite opening_app, closing_app. lia. Qed.
Lemma quote_free_chars s : Forall (fun c => (c < 8220)%N) s -> quote_free s.
Proof.
  unfold quote_free, opening, closing. induction 1 as [|c s C H IH]; [reflexivity|].
  cbn [count_occ]. destruct (N.eq_dec c 8222), (N.eq_dec c 8220), (N.eq_dec c 8221); lia.
Qed.
Ltac plain_chars := repeat apply Forall_cons; try apply Forall_nil; try lia.
(* identifiers have no quotation marks *)
Definition plain (s : pystr) : Prop := Forall (fun c => (c < 8220)%N) s.
Lemma numbered_plain_text a n l : numbered a n l -> plain a.
Proof.
  intros H. assert (D : forall d, ascii_digits d -> plain d).
  { intros d D. eapply Forall_impl; [|exact D]. cbn. lia. }
  destruct H as [d X _|d c X _ L|d c X _ L]; [auto| |]; apply Forall_app; (split; [apply D; assumption|]); unfold small_letter in L; plain_chars.
Qed.
Lemma alphabet_plain a : In a list_alphabet -> plain a.
Proof.
  intros H. assert (S : forallb (forallb (fun c => (c <? 8220)%N)) list_alphabet = true) by (vm_compute; reflexivity).
  rewrite forallb_forall in S. specialize (S _ H). rewrite forallb_forall in S. apply Forall_forall. intros c X. specialize (S _ X). lia.
Qed.
Lemma follows_plain k a b : follows k a b -> plain a -> plain b.
Proof.
  intros [k' a' b' n l m j N A B S|k' a' b' K F|p x L] P.
  - eapply numbered_plain_text, B.
  - apply alphabet_plain. now apply follows_in_In in F.
  - inversion P; subst. constructor; [assumption|]. unfold small_letter in L. constructor; [lia|constructor].
Qed.
Lemma header_plain k i : plain i -> quote_free (header k i).
Proof.
  intros P. apply quote_free_chars. destruct k; cbn [header]; repeat (apply Forall_app; split); auto; plain_chars.
Qed.
Lemma plain_app a b : plain a -> plain b -> plain (a ++ b).
Proof. intros A B. apply Forall_app. auto. Qed.
Lemma child_list_plain k i ck first : child_list k i ck first -> (forall j, i = Some j -> plain j) -> plain first.
Proof. intros [?|?|?|?|?] P; try (plain_chars). apply plain_app; [auto|]. plain_chars. Qed.

Lemma headed_level k i l0 l1 : headed k i l0 l1 -> (forall j, i = Some j -> plain j) ->
  quote_level_diff (l_content l0) = quote_level_diff (l_content l1).
Proof.
  intros H P. destruct i as [i|]; cbn in H.
  - rewrite H, !quote_level_diff_spec, opening_app, closing_app. pose proof (header_plain k i (P i eq_refl)) as Q. unfold quote_free in Q. lia.
  - destruct H as [_ ->]. reflexivity.
Qed.

Lemma picks_split ls r a l b : without_blanks ls r -> r = a ++ l :: b ->
  exists a' b', ls = a' ++ l :: b' /\ open_after a' = open_after a.
Proof.
  intros H. revert a. induction H as [|x ls r N H IH|x ls r N H IH]; intros a E.
  - now destruct a.
  - destruct a as [|y a]; injection E as <- ->.
    + exists [], ls. auto.
    + destruct (IH _ eq_refl) as (a' & b' & -> & O). exists (x :: a'), b'. split; [reflexivity|].
      rewrite !open_after_cons. lia.
  - destruct (IH _ E) as (a' & b' & -> & O). exists (x :: a'), b'. split; [reflexivity|]. rewrite open_after_cons.
    assert (B : blank x) by (unfold blank in *; destruct (l_parts x); [reflexivity|exfalso; apply N; discriminate]).
    rewrite (blank_content _ B). change (quote_level_diff []) with 0. lia.
Qed.
Lemma begins_last k ls kept w x : last_lines k ls kept w -> begins kept x -> begins ls x.
Proof.
  intros L (a & l & b & i & t & E & O & I & C).
  destruct L as [k' ls' _|k' ls' kept' P|k' ls' kept' wrap u _ _ P _ _ _].
  - exists a, l, b, i, t. auto.
  - destruct (picks_split _ _ _ _ _ P E) as (a' & b' & E' & O'). exists a', l, b', i, t. repeat split; auto; lia.
  - destruct (picks_split _ _ a l (b ++ wrap) P) as (a' & b' & E' & O'); [now rewrite E, <- app_assoc|].
    exists a', l, b', i, t. repeat split; auto; lia.
Qed.
Lemma begins_after pre ls x : open_after pre = 0 -> begins ls x -> begins (pre ++ ls) x.
Proof.
  intros O (a & l & b & i & t & -> & O' & I & C). exists (pre ++ a), l, b, i, t. rewrite <- app_assoc, open_after_app. repeat split; auto; lia.
Qed.
Lemma begins_before post ls x : begins ls x -> begins (ls ++ post) x.
Proof.
  intros (a & l & b & i & t & -> & O' & I & C). exists a, l, (b ++ post), i, t. rewrite <- app_assoc. auto.
Qed.
Lemma element_begins k ls e i : element k ls e -> s_identifier e = Some i -> begins ls e.
Proof.
  intros [k' j l0 l1 ls' t H _|k' j l0 l1 ls' intro t rest cs w H _ _ _ _ _] I; cbn in I; subst j;
    exists [], l0, ls', i, (l_content l1); cbn in *; auto.
Qed.

Lemma elements_begin :
  (forall k ls s, element k ls s -> (forall j, s_identifier s = Some j -> plain j) ->
     forall x, inside_sae (ChSae x) s -> begins ls x) /\
  (forall k i ls cs w, parts k i ls cs w -> (forall j, i = Some j -> plain j) ->
     forall x, (In (ChSae x) cs \/ exists d, In d cs /\ inside_child_of (ChSae x) d) -> begins ls x) /\
  (forall k i ls es w, elements k i ls es w -> plain i ->
     forall x, (In x es \/ exists d, In d es /\ inside_sae (ChSae x) d) -> begins ls x).
Proof.
  apply element_mutind.
  - intros k i l0 l1 ls t _ _ _ x H. inversion H as [? ? ? E|? ? ? ? E]; discriminate.
  - intros k i l0 l1 ls intro t rest cs w H E N _ O _ IH P x X. cbn in P.
    assert (B : begins rest x).
    { apply IH; [exact P|]. inversion X as [? ? ? EC I|? ? d ? EC I D]; injection EC as <-; [now left|right; eauto]. }
    destruct B as (a & l & b & i' & t' & -> & O' & I & C).
    destruct intro as [|l1' intro]; [contradiction|]. injection E as <- ->.
    exists (l0 :: intro ++ a), l, b, i', t'. split; [cbn; now rewrite <- app_assoc|]. split; [|auto].
    rewrite open_after_cons, open_after_app, (headed_level _ _ _ _ H P). rewrite open_after_cons in O. lia.
  - intros k i ck first ls es w C _ IH _ P x X. apply IH; [eapply child_list_plain; eauto|].
    destruct X as [X|(d & D & X)]; [left|right].
    + apply in_map_iff in X as (y & [= ->] & X). exact X.
    + apply in_map_iff in D as (y & <- & D). exists y. split; [exact D|]. now inversion X.
  - intros i ls bs w _ _ P x X. exfalso. destruct X as [X|(d & D & X)].
    + apply in_map_iff in X as (y & Y & _). discriminate.
    + apply in_map_iff in D as (y & <- & D). inversion X.
  - intros k i ls kept e w L HE IH I P x X. eapply begins_last; [exact L|].
    destruct X as [[<-|[]]|(d & [<-|[]] & X)]; [eapply element_begins; eauto|].
    apply IH; [|exact X]. intros j J. congruence.
  - intros k i j group ls e es w HE IH I O F _ IH2 P x X.
    destruct X as [[<-|X]|(d & [<-|D] & X)].
    + apply begins_before. eapply element_begins; eauto.
    + apply begins_after; [exact O|]. apply IH2; [eapply follows_plain; eauto|]. now left.
    + apply begins_before. apply IH; [|exact X]. intros j' J. congruence.
    + apply begins_after; [exact O|]. apply IH2; [eapply follows_plain; eauto|]. right. eauto.
Qed.

Lemma extract_plain p l i : known_conf p -> (forall q, p = alphabetic_subpoint_conf q -> plain q) ->
  extract_identifier p l = Some i -> plain i.
Proof.
  intros K Q H. unfold extract_identifier in H. destruct K as [q| | | |]; cbn [pc_regex alphabetic_subpoint_conf numeric_point_conf numeric_subpoint_conf alphabetic_point_conf paragraph_conf] in H.
  - apply match_alphabetic_spec in H as [[(c & L & ->)|[->| ->]] _]; [|plain_chars|plain_chars].
    apply plain_app; [now apply Q|]. unfold small_letter in L. plain_chars.
  - apply match_numeric_spec in H as (n & l' & t & N & _). eapply numbered_plain_text, N.
  - apply match_numeric_spec in H as (n & l' & t & N & _). eapply numbered_plain_text, N.
  - apply match_alphabetic_spec in H as [[(c & L & ->)|[->| ->]] _]; [|plain_chars|plain_chars].
    unfold small_letter in L. plain_chars.
  - apply match_paragraph_spec in H as (n & l' & t & N & _). eapply numbered_plain_text, N.
Qed.
