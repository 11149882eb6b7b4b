(* Sentences of words and references. *)
From Coq Require Import Lia.
From Verif Require Import PyBase PyBaseFacts UnicodeAlnum NumModel IdModel LineModel DateModel RefModel TreeModel StructModel SemModel GramModel GramSpec PegModel PegSpec PegSpec2 PegProofs PegProofs2 PegProofs7 PegProofs10 PegProofs14 PegProofs22 PegProofs23 PegProofs24 PegProofs25 PegProofs26 PegProofs27.
Local Open Scope Z_scope.

Section Total.
Variable total : Z.

(** * How a reference begins *)

Inductive begins : pystr -> Prop :=
| bg_digits n z : digits n -> match z with c :: _ => c <> 46%N /\ c_09 c = false /\ isspace_chr c = false | [] => False end -> begins (n ++ z)
| bg_dot n a z : digits n -> a <> 233%N -> isspace_chr a = false -> begins (n ++ 46%N :: 32%N :: a :: z)
| bg_open c z : c_09 c = true -> begins (40%N :: c :: z)
| bg_letter c z : is_small c -> In (hd 0%N z) (u8 ")−–-") -> begins (c :: z)
| bg_letters c d z : is_small c -> is_small d -> In (hd 0%N z) (u8 ")−–-") -> begins (c :: d :: z).
Lemma number_part i : article_shape i \/ point_number i \/ digits i -> exists n z, i = n ++ z /\ digits n /\ match z with c :: _ => c <> 46%N /\ c_09 c = false /\ isspace_chr c = false | [] => True end.
Proof.
  assert (S : forall c, is_small c -> c <> 46%N /\ c_09 c = false /\ isspace_chr c = false) by (intros c C; split; [unfold is_small in C; lia|]; split; [unfold is_small in C; unfold c_09; lia|now apply small_solid]).
  intros [I|[I|I]].
  - destruct I as [n D|n c D C|b n B D|b n c B D C].
    + exists n, []. now rewrite app_nil_r.
    + exists n, [47%N; c]. split; [reflexivity|]. split; [assumption|]. repeat split; discriminate.
    + exists b, ([58%N] ++ n). split; [reflexivity|]. split; [assumption|]. repeat split; discriminate.
    + exists b, ([58%N] ++ n ++ [47%N; c]). split; [reflexivity|]. split; [assumption|]. repeat split; discriminate.
  - destruct I as [n D|n c D C|n c D C].
    + exists n, []. now rewrite app_nil_r.
    + exists n, [c]. split; [reflexivity|]. split; [assumption|]. now apply S.
    + exists n, [47%N; c]. split; [reflexivity|]. split; [assumption|]. repeat split; discriminate.
  - exists i, []. now rewrite app_nil_r.
Qed.
Lemma number_begins i z a s : article_shape i \/ point_number i \/ digits i -> a <> 233%N -> isspace_chr a = false ->
  (exists z', z = 46%N :: 32%N :: a :: z') \/ match z with c :: _ => is_dash c | [] => False end -> begins (i ++ z ++ s).
Proof.
  intros I A A' H. apply number_part in I as (n & y & -> & D & Y). rewrite <- app_assoc. destruct y as [|c y].
  - cbn [app]. destruct H as [(z' & ->)|H]; [now apply bg_dot|]. apply bg_digits; [exact D|]. destruct z as [|c z]; [destruct H|]. apply dash_chr in H. cbn [app]. tauto.
  - apply bg_digits; [exact D|exact Y].
Qed.
Lemma part_begins t p w s : part_written t p w -> begins (w ++ s).
Proof.
  intros (x & e & W & _ & ->). rewrite <- app_assoc.
  assert (H : exists a y, unit_text t = a :: y /\ a <> 233%N /\ isspace_chr a = false) by (destruct t; cbn [unit_text]; eexists; eexists; (split; [reflexivity|]); split; try discriminate; reflexivity).
  destruct H as (a & y & -> & A & A').
  assert (L : forall i z, letter_shape i \/ sub_letter i -> In (hd 0%N z) (u8 ")−–-") -> begins (i ++ z)).
  { intros i z [[(c & -> & C)|[->| ->]]|(c & l & -> & C & M)] Z.
    - now apply bg_letter.
    - apply bg_letters; [unfold is_small; lia|unfold is_small; lia|exact Z].
    - apply bg_letters; [unfold is_small; lia|unfold is_small; lia|exact Z].
    - destruct M as [|d D]; [now apply bg_letter|now apply bg_letters]. }
  assert (P : forall i, paragraph_shape i -> exists c v, i = c :: v /\ c_09 c = true).
  { intros i (n & l & -> & D & _). destruct (digits_head n D) as (d & v & -> & E). exists d, (v ++ l). auto. }
  destruct W as [i I|i d j I J D]; destruct t; cbn [one_text range_text part_id] in *; rewrite <- ?app_assoc.
  all: try (destruct (P i I) as (c & v & -> & C); now apply bg_open).
  all: try (apply L; [tauto|cbn; tauto]).
  all: try (cbn [app]; apply L; [tauto|destruct D as [<-|[<-|[<-|[]]]]; cbn; tauto]).
  all: try (eapply (number_begins i (46%N :: 32%N :: a :: y)); [tauto|exact A|exact A'|left; now exists y]).
  all: apply (number_begins i [d] a); [tauto|exact A|exact A'|right; exact D].
Qed.
Lemma reference_begins r w s : reference_written r w -> begins (w ++ s).
Proof.
  intros (a & b & q & p & W0 & W1 & W2 & W3 & E & _).
  assert (K : forall k i x z, level_written k i x -> x <> [] -> x ++ z = u8 " " ++ w -> begins (w ++ s)).
  { intros k i x z [[_ ->]|(t & y & _ & X & ->)] N H; [contradiction|]. injection H as <-. rewrite <- !app_assoc. eapply part_begins. exact X. }
  destruct a as [|c a]; [|apply (K 1%nat (r_article r) (c :: a) (b ++ q ++ p)); [exact W0|discriminate|exact E]].
  destruct b as [|c b]; [|apply (K 2%nat (r_paragraph r) (c :: b) (q ++ p)); [exact W1|discriminate|exact E]].
  destruct q as [|c q]; [|apply (K 3%nat (r_point r) (c :: q) p); [exact W2|discriminate|exact E]].
  apply (K 4%nat (r_subpoint r) p []); [exact W3| |now rewrite app_nil_r].
  cbn [app] in E. rewrite E. discriminate.
Qed.
Lemma small_no_dash c : is_small c -> ~ is_dash c.
Proof. intros C D. apply dash_chr in D as (_ & _ & D & _). rewrite small_b in D by exact C. discriminate. Qed.
Lemma begins_opens s : begins s -> opens s /\ ws s = s.
Proof.
  assert (G : forall c t, isspace_chr c = false -> c <> 41%N -> ~ is_dash c -> c <> 116%N -> c <> 118%N -> opens (c :: t) /\ ws (c :: t) = c :: t).
  { intros c t C N D N1 N2. split; [|now apply ws_solid_head]. right. exists c, t. repeat split; auto; intros r H; injection H as H _; contradiction. }
  assert (DG : forall n z, digits n -> opens (n ++ z) /\ ws (n ++ z) = n ++ z).
  { intros n z D. destruct (digits_head n D) as (c & n' & -> & C). cbn [app]. apply G.
    - now apply digit_space.
    - intros ->. discriminate.
    - intros X. apply dash_chr in X. destruct X as (_ & X & _). congruence.
    - intros ->. discriminate.
    - intros ->. discriminate. }
  assert (B : forall a, In a (u8 ")−–-") -> a <> 46%N /\ c_az a = false).
  { intros a Ha. repeat (destruct Ha as [<-|Ha]; [split; [discriminate|reflexivity]|]). destruct Ha. }
  intros H. destruct H as [n z D _|n a z D _ _|b z _|c z C Z|c d z C D Z].
  - now apply DG.
  - now apply DG.
  - apply G; try discriminate; try reflexivity. cbn. intuition discriminate.
  - apply B in Z as [Z1 Z2]. split; [|apply ws_solid_head; now apply small_solid]. right. exists c, z. split; [reflexivity|]. split; [now apply small_solid|]. split; [unfold is_small in C; lia|]. split; [now apply small_no_dash|].
    split; intros r [= -> ->]; discriminate.
  - apply B in Z as [Z1 Z2]. split; [|apply ws_solid_head; now apply small_solid]. right. exists c, (d :: z). split; [reflexivity|]. split; [now apply small_solid|]. split; [unfold is_small in C; lia|]. split; [now apply small_no_dash|].
    split; intros r [= -> -> ->]; [contradiction|discriminate].
Qed.
Lemma capital_range c : hun_capital c -> ((65 <= c <= 90) \/ 190 < c)%N.
Proof.
  intros [H|H]; [left; unfold is_capital in H; lia|right]. repeat (destruct H as [<-|H]; [lia|]). destruct H.
Qed.
Lemma begins_no_act s : begins s -> g_act_reference total s = None.
Proof.
  intros B. apply begins_opens in B as E. destruct E as [_ E]. unfold g_act_reference, p_rule. rewrite E. rewrite or_no.
  - apply bind_no. unfold g_act_id. apply (map_no (fun x => (fst (fst x), snd (fst x), snd x))). apply span_no. rewrite E. destruct B as [n z D Z|n a z D A A'|b z _|c z C Z|c d z C D Z].
    + rewrite (bind_yes _ _ _ n z); [|apply number_yes; [exact D|destruct z as [|c z]; [exact I|now apply Z]]]. apply bind_no. destruct z as [|c z]; [destruct Z|]. apply tok_no. rewrite lc_solid; now apply Z.
    + rewrite (bind_yes _ _ _ n (46%N :: 32%N :: a :: z)); [|now apply number_yes]. rewrite (bind_yes _ _ _ _ _ (tok_dot _)). apply bind_no, tok_no. rewrite lc_space by reflexivity. now rewrite lc_solid.
    + reflexivity.
    + apply bind_no, number_no. rewrite lc_solid by now apply small_solid. unfold is_small in C. unfold c_09. lia.
    + apply bind_no, number_no. rewrite lc_solid by now apply small_solid. unfold is_small in C. unfold c_09. lia.
  - apply bind_no, span_no. rewrite E. destruct (g_abbreviation_rule s) as [[x r]|] eqn:G; [|reflexivity]. exfalso. apply abbreviation_spells in G as [F (c & w & e & -> & C & _)]. rewrite E in F.
    assert (H : forall n z t, digits n -> n ++ z = c :: t -> False).
    { intros n z t D X. destruct (digits_head n D) as (c' & n' & -> & C'). injection X as -> _. apply capital_range in C. unfold c_09 in C'. lia. }
    assert (SM : forall c', is_small c' -> c' = c -> False).
    { intros c' C' ->. apply capital_range in C. unfold is_small in C'. lia. }
    destruct B as [n z D Z|n a z D A A'|z|c' z C' Z|c' d z C' D Z].
    + now apply (H n z ((w ++ e) ++ r)).
    + now apply (H n (46%N :: 32%N :: a :: z) ((w ++ e) ++ r)).
    + injection F as <- _. apply capital_range in C. lia.
    + injection F as F _. now apply (SM c').
    + injection F as F _. now apply (SM c').
Qed.
Lemma begins_quote s : begins s -> lc s <> 8222%N.
Proof.
  intros B. destruct B as [n z D Z|n a z D A A'|b z _|c z C Z|c d z C D Z].
  - destruct (digits_head n D) as (c' & n' & -> & C'). cbn [app]. rewrite lc_solid by now apply digit_space. intros ->. discriminate.
  - destruct (digits_head n D) as (c' & n' & -> & C'). cbn [app]. rewrite lc_solid by now apply digit_space. intros ->. discriminate.
  - discriminate.
  - rewrite lc_solid by now apply small_solid. intros ->. unfold is_small in C. lia.
  - rewrite lc_solid by now apply small_solid. intros ->. unfold is_small in C. lia.
Qed.

(** * The step over a reference *)

Definition told_tree (t : g_tree) (l : list conversion) : Prop := convert_depth_first t = Ok l.
Lemma reference_step r w s : r_act r = None -> reference_written r w -> silent total s ->
  exists t, g_any_simple_expression total (w ++ s) = Some (t, s) /\ told_tree t [COutgoing (mk_outgoing (pos_of total (w ++ s)) (pos_of total s) r)].
Proof.
  intros A R S. pose proof (reference_begins r w s R) as B. apply begins_opens in B as E. destruct E as [_ E]. destruct (reference_reads total r w s R S) as (g & G & C).
  exists (GTree (GCompoundReference None [g]) []). split.
  - unfold g_any_simple_expression, p_rule. rewrite E. apply or_yes, or_yes. rewrite or_no; [|apply map_no, quote_no; now apply begins_quote].
    unfold g_compound_reference, p_rule. rewrite E. rewrite or_no by (apply bind_no; now apply begins_no_act). now rewrite (bind_yes _ _ _ _ _ G).
  - unfold told_tree. cbn. rewrite C. cbn. unfold put_act. destruct r. cbn in *. now rewrite A.
Qed.
End Total.
