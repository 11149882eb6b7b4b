(* Sentences that say when an act enters into force. *)
From Coq Require Import Lia.
From Verif Require Import PyBase PyBaseFacts UnicodeAlnum NumModel IdModel LineModel DateModel DateSpec DateProofs RefModel RefSpec TreeModel StructModel StructSpec SemModel GramModel GramSpec GramProofs4 PegModel PegSpec PegSpec2 PegSpec3 PegSpec4 PegProofs PegProofs2 PegProofs7 PegProofs10 PegProofs13 PegProofs14 PegProofs22 PegProofs23 PegProofs24 PegProofs25 PegProofs26 PegProofs27 PegProofs28 PegProofs29 PegProofs30 PegProofs31 PegProofs32 PegProofs33 PegProofs34 PegProofs35 PegProofs36 PegProofs37 PegProofs38 CiteSpec CiteProofs CiteProofs4.
Local Open Scope Z_scope.

(** * No quotes *)

Definition unquoted (s : pystr) : Prop := Forall (fun c => c <> 8222%N) s.
Lemma unquoted_app a b : unquoted a -> unquoted b -> unquoted (a ++ b).
Proof. intros A B. apply Forall_app. now split. Qed.
Lemma unquoted_check s : forallb (fun c => negb (c =? 8222)%N) s = true -> unquoted s.
Proof. intros H. apply Forall_forall. rewrite forallb_forall in H. intros c C ->. discriminate (H _ C). Qed.
Lemma unquoted_in w l : In w l -> forallb (forallb (fun c => negb (c =? 8222)%N)) l = true -> unquoted w.
Proof. intros I F. rewrite forallb_forall in F. now apply unquoted_check, F. Qed.
Lemma unquoted_digits n : digits n -> unquoted n.
Proof. intros [_ D]. eapply Forall_impl; [|exact D]. cbn. intros c C. lia. Qed.
Lemma unquoted_smalls e : Forall hun_small e -> unquoted e.
Proof. intros D. eapply Forall_impl; [|exact D]. intros c [C|C]; [unfold is_small in C; lia|cbn in C; intuition lia]. Qed.
Lemma unquoted_maybe (P : BinNums.N -> Prop) l : (forall c, P c -> c <> 8222%N) -> maybe P l -> unquoted l.
Proof. intros H [|c C]; [constructor|]. constructor; [now apply H|constructor]. Qed.
Lemma unquoted_id t i : part_id t i -> unquoted i.
Proof.
  assert (Cap : forall c, is_capital c -> unquoted [c]) by (intros c C; constructor; [unfold is_capital in C; lia|constructor]).
  assert (Sm : forall c, is_small c -> unquoted [c]) by (intros c C; constructor; [unfold is_small in C; lia|constructor]).
  assert (Sl : forall c l, c <> 8222%N -> unquoted l -> unquoted (c :: l)) by (intros; now constructor).
  destruct t; cbn.
  - intros [n D|n c D C|b n B D|b n c B D C]; repeat first [apply unquoted_app|now apply unquoted_digits|apply Sl; [discriminate|]|now apply Cap|apply Forall_nil].
  - intros (n & l & -> & D & M). apply unquoted_app; [now apply unquoted_digits|]. eapply unquoted_maybe; [|exact M]. unfold is_small. lia.
  - intros [(c & -> & C)|[->| ->]]; [now apply Sm|now apply unquoted_check..].
  - intros [n D|n c D C|n c D C]; repeat first [apply unquoted_app|now apply unquoted_digits|apply Sl; [discriminate|]|now apply Sm|apply Forall_nil].
  - intros (c & l & -> & C & M). apply Sl; [unfold is_small in C; lia|]. eapply unquoted_maybe; [|exact M]. unfold is_small. lia.
  - apply unquoted_digits.
Qed.
Lemma unquoted_dash d : is_dash d -> unquoted [d].
Proof. intros D. constructor; [|constructor]. cbn in D. intuition lia. Qed.
Ltac unq := repeat first [apply unquoted_app|apply Forall_nil|apply unquoted_check; reflexivity|eapply unquoted_id; eassumption|now apply unquoted_digits|now apply unquoted_smalls|now apply unquoted_dash].
Lemma unquoted_separator p : separator p -> unquoted p.
Proof. intros (x & a & X & A & ->). apply unquoted_app; [exact (unquoted_in _ _ X eq_refl)|]. apply unquoted_app; [now apply unquoted_check|exact (unquoted_in _ _ A eq_refl)]. Qed.
Lemma unquoted_item t p x : item_written t p x -> unquoted x.
Proof. intros I. destruct I as [i P|i d j P P' D]; destruct t; cbn [one_text range_text]; unq. Qed.
Lemma unquoted_items t k x items : items_written t k x items -> unquoted x.
Proof.
  intros W. induction W as [k p x W|k p x sep y l W S _ IH]; [exact (unquoted_item _ _ _ W)|]. apply unquoted_app; [exact (unquoted_item _ _ _ W)|]. apply unquoted_app; [exact (unquoted_separator _ S)|exact IH].
Qed.
Lemma unquoted_level n k w out : level_listed n k w out -> unquoted w.
Proof.
  intros [[-> _]|(t & x & e & items & _ & W & E & _ & _ & ->)]; [constructor|]. apply unquoted_app; [now apply unquoted_check|]. apply unquoted_app; [exact (unquoted_items _ _ _ _ W)|]. apply unquoted_app; [now apply unquoted_check|]. apply unquoted_app; [destruct t; now apply unquoted_check|].
  assert (S : ending e -> unquoted e) by apply unquoted_smalls. destruct t; try (now apply S). destruct E as [->|(l & -> & _ & L)]; [constructor|]. constructor; [discriminate|now apply unquoted_smalls].
Qed.
Lemma unquoted_reference act k w out : reference_listed act k w out -> unquoted w.
Proof.
  intros (a & p & q & s & la & lp & lq & ls & A & P & Q & S & E & _). assert (K : unquoted (u8 " " ++ w)) by (rewrite <- E; repeat apply unquoted_app; eapply unquoted_level; eassumption). now inversion K.
Qed.
Lemma unquoted_chain last k w l : chain_written last k w l -> unquoted w.
Proof. intros C. induction C as [last k w raw out final R _|last k w raw out final p s l R _ P _ IH]; [exact (unquoted_reference _ _ _ _ R)|]. apply unquoted_app; [exact (unquoted_reference _ _ _ _ R)|]. apply unquoted_app; [exact (unquoted_separator _ P)|exact IH]. Qed.
Lemma unquoted_date w d : date_named w d -> unquoted w.
Proof.
  intros (y & n & e & Y & N & M & E & ->). apply unquoted_app; [exact (unquoted_digits _ (numeral_digits _ _ Y))|]. apply unquoted_app; [now apply unquoted_check|]. apply unquoted_app; [|apply unquoted_app; [now apply unquoted_check|]; apply unquoted_app; [exact (unquoted_digits _ (numeral_digits _ _ N))|exact (unquoted_in _ _ E eq_refl)]].
  apply (unquoted_in _ month_names); [|reflexivity]. apply nth_In. change (length month_names) with 12%nat. lia.
Qed.
Lemma unquoted_ordinal v m : In (v, m) grammar_ordinals -> unquoted v.
Proof. intros I. apply (unquoted_in v (map fst grammar_ordinals)); [|reflexivity]. apply in_map_iff. now exists (v, m). Qed.
Lemma unquoted_count w n : count_named w n -> unquoted w.
Proof. intros [s m S|s m S]; (apply unquoted_app; [now apply unquoted_check|]). - apply unquoted_app; [exact (unquoted_digits _ (numeral_digits _ _ S))|now apply unquoted_check]. - exact (unquoted_ordinal _ _ S). Qed.
Lemma unquoted_proclaimed p : proclaimed p -> unquoted p.
Proof. intros (a & b & A & B & ->). apply unquoted_app; [exact (unquoted_in _ _ A eq_refl)|]. apply unquoted_app; [exact (unquoted_in _ _ B eq_refl)|now apply unquoted_check]. Qed.
Lemma unquoted_moment date w : moment_written date w -> unquoted w.
Proof.
  intros M. destruct M as [d w D|p P|p n w P C|p n w P C|p m v n w P V C]; [exact (unquoted_date _ _ D)|..]; (apply unquoted_app; [exact (unquoted_proclaimed _ P)|]).
  - now apply unquoted_check.
  - apply unquoted_app; [exact (unquoted_count _ _ C)|now apply unquoted_check].
  - apply unquoted_app; [now apply unquoted_check|]. apply unquoted_app; [exact (unquoted_count _ _ C)|now apply unquoted_check].
  - apply unquoted_app; [now apply unquoted_check|]. apply unquoted_app; [exact (unquoted_ordinal _ _ V)|]. apply unquoted_app; [now apply unquoted_check|]. apply unquoted_app; [exact (unquoted_count _ _ C)|now apply unquoted_check].
Qed.
Lemma unquoted_ends d v : ends_written d v -> unquoted v.
Proof. intros [|a d' w b A D B]; [constructor|]. apply unquoted_app; [now apply unquoted_check|]. apply unquoted_app; [exact (unquoted_in _ _ A eq_refl)|]. apply unquoted_app; [now apply unquoted_check|]. apply unquoted_app; [exact (unquoted_date _ _ D)|]. apply unquoted_app; [exact (unquoted_in _ _ B eq_refl)|now apply unquoted_check]. Qed.
Lemma unquoted_exception k x l : exception_written k x l -> unquoted x.
Proof. intros [|k' d w raw out final b c d' D D' R _ B C]; [constructor|]. repeat (apply unquoted_app); try (now apply unquoted_check); try (now apply unquoted_dash); [exact (unquoted_reference _ _ _ _ R)|exact (unquoted_in _ _ B eq_refl)|exact (unquoted_in _ _ C eq_refl)]. Qed.
Lemma unquoted_subjects k x l : subjects_written k x l -> unquoted x.
Proof. intros [|k' w l' C]; [constructor|]. apply unquoted_app; [now apply unquoted_check|exact (unquoted_chain _ _ _ _ C)]. Qed.

(** * Exceptions, subjects and the end *)

Lemma ends_reads until v : ends_written until v -> exists g, p_opt g_inline_repeal (v ++ u8 ".") = Some (g, u8 ".") /\
  match until, g with
  | None, None => True
  | Some d, Some g => (supported d -> convert_exact_date g = Ok d) /\ (~ supported d -> exists e, convert_exact_date g = Err e)
  | _, _ => False
  end.
Proof.
  intros [|a d w b A D B]; [exists None; now split|]. rewrite <- !app_assoc. destruct (date_reads w d (b ++ u8 " hatályát veszti" ++ u8 ".") D) as (g & G & H). exists (Some g). split.
  - apply opt_yes. unfold g_inline_repeal, p_rule. change (ws (u8 ", és" ++ a ++ u8 " " ++ w ++ b ++ u8 " hatályát veszti" ++ u8 ".")) with (u8 ", és" ++ a ++ u8 " " ++ w ++ b ++ u8 " hatályát veszti" ++ u8 ".").
    rewrite (bind_yes _ _ _ (u8 ", és") (a ++ u8 " " ++ w ++ b ++ u8 " hatályát veszti" ++ u8 ".")) by (apply (tok_yes (u8 ", és")); [reflexivity|intros K; discriminate K]).
    assert (O : exists o, p_opt (p_toks [u8 "e"; u8 "ez a"] ;~ p_tok (u8 "törvény")) (a ++ u8 " " ++ w ++ b ++ u8 " hatályát veszti" ++ u8 ".") = Some (o, u8 " " ++ w ++ b ++ u8 " hatályát veszti" ++ u8 ".")).
    { destruct A as [<-|[<-|[<-|[]]]]; [|eexists; reflexivity..]. exists None. apply opt_no, bind_no. destruct D as (y & n & e & Y & _ & _ & _ & ->). destruct (digits_head _ (numeral_digits _ _ Y)) as (c & t & -> & C).
      assert (L : forall s s', lc (u8 " " ++ ((c :: t) ++ s) ++ s') = c) by (intros s s'; cbn [app]; rewrite lc_space by reflexivity; apply lc_solid; now apply digit_space).
      apply toks_no. rewrite L. unfold c_09 in C. apply andb_prop in C as [C1 C2]. apply N.leb_le in C1, C2. repeat (apply Forall_cons; [cbn; lia|]). apply Forall_nil. }
    destruct O as (o & O). rewrite (bind_yes _ _ _ _ _ O), (bind_yes _ _ _ _ _ G). destruct B as [<-|[<-|[]]]; reflexivity.
  - destruct (exact_date _ _ _ _ H) as [H1 H2]. now destruct d.
Qed.
Section Total.
Variable total : Z.
Definition g_exception : parser g_reference :=
  g_dash ;~ p_tok (u8 "a") ;~ r <~ g_reference_rule total ;;
  p_toks [u8 "foglalt"; u8 "foglaltak"; u8 "meghatározott"] ;~
  p_toks [u8 "kivétellel"; u8 "kivételével"; u8 "kivételekkel"] ;~ g_dash ;~ p_ret r.
Lemma exception_reads k x xs s : exception_written k x xs -> pos_of total (x ++ s) = k -> ~ is_dash (lc s) ->
  exists o, p_opt g_exception (x ++ s) = Some (o, s) /\ convert_multiple_in_text_references None (match o with Some e => [e] | None => [] end) = Ok xs.
Proof.
  intros [k'|k' d w raw out final b c d' D D' R Fi B C] K N.
  - exists None. split; [|reflexivity]. apply opt_no, bind_no. now apply dash_no.
  - rewrite <- !app_assoc in *. set (rest := b ++ c ++ u8 " " ++ [d'] ++ s) in *.
    assert (S : silent total rest).
    { unfold rest. split; [|split]; destruct B as [<-|[<-|[<-|[]]]]; try (now left); try (intros t; destruct t; reflexivity); unfold is_dash; cbn; intuition discriminate. }
    destruct (listed_reference_reads total None (k' + 5) w raw rest R) as (g & G & H); [unfold pos_of in *; cbn [app length] in K; lia|exact S|]. exists (Some g). split.
    + apply opt_yes. unfold g_exception. rewrite (bind_yes _ _ _ [d] (u8 " a " ++ w ++ rest)).
      2:{ unfold g_dash. change (u8 " " ++ [d] ++ u8 " a " ++ w ++ rest) with (32%N :: d :: u8 " a " ++ w ++ rest). rewrite rule_space by reflexivity. now apply dash_yes. }
      rewrite (bind_yes _ _ _ (u8 "a") (u8 " " ++ w ++ rest)) by reflexivity.
      assert (G' : g_reference_rule total (u8 " " ++ w ++ rest) = Some (g, rest)). { rewrite <- reference_rule_ws. change (ws (u8 " " ++ w ++ rest)) with (ws (w ++ rest)). now rewrite (proj2 (starts_opens _ (reference_starts _ _ _ _ rest R))). }
      rewrite (bind_yes _ _ _ _ _ G'). unfold rest.
      assert (T1 : exists z, p_toks [u8 "foglalt"; u8 "foglaltak"; u8 "meghatározott"] (b ++ c ++ u8 " " ++ [d'] ++ s) = Some (z, c ++ u8 " " ++ [d'] ++ s)) by (destruct C as [<-|[<-|[<-|[]]]]; (destruct B as [<-|[<-|[<-|[]]]]; eexists; reflexivity)).
      assert (T2 : exists z, p_toks [u8 "kivétellel"; u8 "kivételével"; u8 "kivételekkel"] (c ++ u8 " " ++ [d'] ++ s) = Some (z, u8 " " ++ [d'] ++ s)) by (destruct C as [<-|[<-|[<-|[]]]]; eexists; reflexivity).
      destruct T1 as (z1 & T1), T2 as (z2 & T2). rewrite (bind_yes _ _ _ _ _ T1), (bind_yes _ _ _ _ _ T2). rewrite (bind_yes _ _ _ [d'] s); [reflexivity|].
      unfold g_dash. change (u8 " " ++ [d'] ++ s) with (32%N :: d' :: s). rewrite rule_space by reflexivity. now apply dash_yes.
    + unfold convert_multiple_in_text_references. cbn [convert_multiple_loop]. rewrite H. cbn [bind]. fold nowhere. apply reference_acts in R as [R _]. rewrite (all_filled_chain _ _ _ _ Fi R). cbn [bind]. now rewrite app_nil_r.
Qed.
Lemma subjects_reads k x refs s : subjects_written k x refs -> pos_of total (x ++ s) = k -> silent total s -> g_separator s = Some (tt, s) ->
  exists gs, p_many (g_listed_reference total) (x ++ s) = Some (gs, s) /\ convert_multiple_in_text_references None gs = Ok refs /\ (gs = [] <-> refs = []) /\ ~ is_dash (lc (x ++ s)).
Proof.
  intros [k'|k' w l C] K S G.
  - exists []. split; [apply many_no, bind_no, reference_no, S|]. split; [reflexivity|]. split; [tauto|apply S].
  - destruct (starts_opens _ (chain_starts _ _ _ _ s C)) as [O W]. assert (Ne : l <> []) by (eapply chain_some; exact C).
    destruct (chain_reads total s s nowhere (k' + 1) w l S G ltac:(apply S) C ltac:(unfold pos_of in *; cbn [app length] in K; lia) (length (u8 " " ++ w ++ s)) (u8 " " ++ w ++ s) W ltac:(lia)) as (g & gs & D & F).
    exists (g :: gs). split; [unfold p_many; f_equal; exact D|]. split; [exact F|]. split; [split; intros; [discriminate|contradiction]|]. change (lc ((u8 " " ++ w) ++ s)) with (lc (w ++ s)). now apply opens_lc.
Qed.
End Total.
