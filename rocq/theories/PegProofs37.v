(* Text amendments, amendments of titles and repeals, read forwards. *)
From Coq Require Import Lia.
From Verif Require Import PyBase PyBaseFacts UnicodeAlnum NumModel IdModel LineModel DateModel RefModel RefSpec TreeModel StructModel SemModel GramModel GramSpec PegModel PegSpec PegSpec2 PegSpec3 PegProofs PegProofs2 PegProofs7 PegProofs10 PegProofs13 PegProofs14 PegProofs22 PegProofs23 PegProofs24 PegProofs25 PegProofs26 PegProofs27 PegProofs28 PegProofs29 PegProofs30 PegProofs31 PegProofs32 PegProofs33 PegProofs34 PegProofs35 PegProofs36 CiteSpec CiteProofs CiteProofs4.
Local Open Scope Z_scope.

(** * Conversions *)

Lemma mapM_all {A B} (f : A -> res B) g l : (forall x, In x l -> f x = Ok (g x)) -> mapM f l = Ok (map g l).
Proof. intros H. induction l as [|x l IH]; [reflexivity|]. cbn [mapM map]. rewrite H by now left. cbn [bind]. rewrite IH by (intros y Y; apply H; now right). reflexivity. Qed.
Lemma flat_mapM_all {A B} (f : A -> res (list B)) g l : (forall x, In x l -> f x = Ok (g x)) -> flat_mapM f l = Ok (flat_map g l).
Proof. intros H. induction l as [|x l IH]; [reflexivity|]. cbn [flat_mapM flat_map]. rewrite H by now left. cbn [bind]. rewrite IH by (intros y Y; apply H; now right). reflexivity. Qed.
Lemma analysis_of m sds refs l : l = map CAbbreviation m ++ map CSemantic sds ++ map COutgoing refs ->
  mk_analysis (all_references l) (semantic_data_of l) (act_id_abbreviations l) = mk_analysis refs sds m.
Proof.
  intros ->. unfold all_references, semantic_data_of, act_id_abbreviations. rewrite !flat_map_app.
  assert (A : forall B (f : conversion -> list B), (forall x, f (CAbbreviation x) = []) -> flat_map f (map CAbbreviation m) = []) by (intros B f H; clear -H; induction m as [|x m IH]; [reflexivity|]; cbn; now rewrite H).
  assert (O : forall B (f : conversion -> list B), (forall x, f (COutgoing x) = []) -> flat_map f (map COutgoing refs) = []) by (intros B f H; clear -H; induction refs as [|x l IH]; [reflexivity|]; cbn; now rewrite H).
  assert (S : forall B (f : conversion -> list B), (forall x, f (CSemantic x) = []) -> flat_map f (map CSemantic sds) = []) by (intros B f H; clear -H; induction sds as [|x l IH]; [reflexivity|]; cbn; now rewrite H).
  rewrite (A outgoing_reference), (A semantic_data), (O act_id_abbreviation), (O semantic_data), (S outgoing_reference), (S act_id_abbreviation) by reflexivity. rewrite !app_nil_r. cbn [app]. f_equal.
  - clear. induction refs as [|x l IH]; [reflexivity|]. cbn. now f_equal.
  - clear. induction sds as [|x l IH]; [reflexivity|]. cbn. now f_equal.
  - clear. induction m as [|x l IH]; [reflexivity|]. cbn. now f_equal.
Qed.
Lemma node_converts a k k' m g n sds refs : says_act a k k' m g -> convert_single_node (n g) = both (semantics (Ok sds)) (outgoings (Ok refs)) ->
  exists l, convert_depth_first (node_with_act n g) = Ok l /\ mk_analysis (all_references l) (semantic_data_of l) (act_id_abbreviations l) = mk_analysis refs sds m.
Proof.
  intros (_ & _ & N) C. unfold node_with_act. cbn [convert_depth_first]. rewrite C. cbn [convert_single_node]. rewrite N. cbn. eexists. split; [reflexivity|]. apply analysis_of. now rewrite !app_nil_r.
Qed.
Lemma node_found text n g a k k' m sds refs : g_start (Z.of_nat (length text)) text = Some (node_with_act n g, []) -> says_act a k k' m g ->
  convert_single_node (n g) = both (semantics (Ok sds)) (outgoings (Ok refs)) -> grammar_analyzer text = Some (mk_analysis refs sds m).
Proof.
  intros G A C. destruct (node_converts a k k' m g n sds refs A C) as (l & L & E). unfold grammar_analyzer, analyzer_of, grammar_parse. rewrite G, L. now rewrite E.
Qed.
Lemma act_refs_convert a k k' m g gs refs : says_act a k k' m g -> convert_multiple_loop (act_only a) gs = Ok refs -> act_and_references g gs = Ok (mk_outgoing k k' (act_only a) :: refs).
Proof.
  intros (I & J & _) C. unfold act_and_references. rewrite I. cbn [bind]. unfold act_outgoing. rewrite J. cbn [bind fst snd]. unfold convert_multiple_in_text_references. fold (act_only a). now rewrite C.
Qed.
Lemma text_converts a k k' m g gs refs parts : says_act a k k' m g -> convert_multiple_loop (act_only a) gs = Ok refs ->
  text_to_text g gs (map trees parts) = Ok (flat_map (fun o => map (fun t => TextAmendment (or_reference o) (str_strip (fst t)) (str_strip (snd t))) parts) refs).
Proof.
  intros (I & _) C. unfold text_to_text. rewrite I. cbn [bind]. unfold convert_multiple_in_text_references. fold (act_only a). rewrite C. cbn [bind]. apply flat_mapM_all. intros o _.
  induction parts as [|[x y] l IH]; [reflexivity|]. cbn [map mapM trees fst snd]. rewrite !quote_string. cbn [bind]. now rewrite IH.
Qed.
Lemma repeal_converts a k k' m g gs refs texts : says_act a k k' m g -> convert_multiple_loop (act_only a) gs = Ok refs ->
  repeal_to_repeal g gs (map quote_tree texts) = Ok (flat_map (fun o => match texts with [] => [Repeal (ARef (or_reference o)) None] | _ => map (fun t => Repeal (ARef (or_reference o)) (Some (str_strip t))) texts end) refs).
Proof.
  intros (I & _) C. unfold repeal_to_repeal. rewrite I. cbn [bind]. unfold convert_multiple_in_text_references. fold (act_only a). rewrite C. cbn [bind]. apply flat_mapM_all. intros o _.
  destruct texts as [|t texts]; [reflexivity|]. cbn [map]. change (quote_tree t :: map quote_tree texts) with (map quote_tree (t :: texts)). change (Repeal (ARef (or_reference o)) (Some (str_strip t)) :: map (fun t => Repeal (ARef (or_reference o)) (Some (str_strip t))) texts) with (map (fun t => Repeal (ARef (or_reference o)) (Some (str_strip t))) (t :: texts)).
  generalize (t :: texts). clear. intros l. induction l as [|x l IH]; [reflexivity|]. cbn [map mapM]. rewrite quote_string. cbn [bind]. now rewrite IH.
Qed.
Lemma title_converts a k k' m g i j s b b' : says_act a k k' m g -> concat j = i ->
  title_to_title g j (quote_tree b) (quote_tree b') = Ok [ArticleTitleAmendment (mk_ref (Some a) (RId i) RNone RNone RNone) (str_strip b) (str_strip b')] /\
  title_to_reference g j s = Ok [mk_outgoing k k' (act_only a); mk_outgoing (fst s) (snd s) (mk_ref (Some a) (RId i) RNone RNone RNone)].
Proof.
  intros (I & J & _) <-. unfold title_to_title, title_to_reference, act_outgoing. rewrite I. cbn [bind]. rewrite J. cbn [bind]. rewrite !quote_string. now split.
Qed.

(** * Sentences that do not end in a colon *)

Lemma dot_no_colon u : ~ ends_in_colon (u ++ u8 ".").
Proof.
  intros (a & b & E & B). destruct b as [|c b] using rev_ind; [apply app_inj_tail in E as [_ E]; discriminate E|]. rewrite !app_assoc in E. apply app_inj_tail in E as [_ <-]. apply Forall_app in B as [_ B]. inversion B as [|? ? C]. discriminate C.
Qed.
Lemma no_colon_none {A} T (p : parser A) : ~ ends_in_colon T -> closes T (u8 ":") p -> to_the_end p (ws T) = None.
Proof. intros Q P. destruct (to_the_end p (ws T)) as [[x r]|] eqn:E; [|reflexivity]. destruct Q. eapply end_colon; [exact P|apply ws_suf|exact E]. Qed.
Lemma article_solid z s : article_word z -> ws (z ++ s) = z ++ s.
Proof. intros Z. unfold article_word in Z. destruct Z as [<-|[<-|[<-|[<-|[]]]]]; reflexivity. Qed.
Lemma to_end {A} (p : parser A) s x : p s = Some (x, []) -> to_the_end p s = Some (x, []).
Proof. intros H. unfold to_the_end. now rewrite (bind_yes _ _ _ _ _ H). Qed.

(** * Text amendments *)

Lemma enters_dot e : enters e -> exists v, e = v ++ u8 "." /\ exists w, v = u8 " lép" ++ w.
Proof. intros [<-|[<-|[]]]; [exists (u8 " lép")|exists (u8 " lép hatályba")]; (split; [reflexivity|]); eexists; reflexivity. Qed.
Theorem text_amendment_found z u a x y m w refs q parts v e k : article_word z -> title_words u -> act_written a x y m -> k = size z + size u ->
  chain_written (act_only a) (k + size x + size y + 1) w refs -> quote_article q -> replacements_written parts v -> enters e ->
  grammar_analyzer (z ++ u ++ x ++ y ++ u8 " " ++ w ++ q ++ v ++ e) = Some (mk_analysis (mk_outgoing k (k + size x) (act_only a) :: refs)
      (flat_map (fun o => map (fun t => TextAmendment (or_reference o) (str_strip (fst t)) (str_strip (snd t))) parts) refs) m).
Proof.
  intros Z Tw A K L Q R E. set (T := z ++ u ++ x ++ y ++ u8 " " ++ w ++ q ++ v ++ e). set (n := Z.of_nat (length T)).
  pose proof (chain_starts _ _ _ _ (q ++ v ++ e) L) as Bt. destruct (replacements_quoted _ _ R) as (b & c & V).
  destruct (the_act_reads n z u a x y m (u8 " " ++ w ++ q ++ v ++ e) Z Tw A (gap_space _) (starts_bracket _ Bt) (starts_no_more _ Bt) (starts_no_effect _ Bt)) as (g & H & Y).
  assert (S : silent n (q ++ v ++ e) /\ g_separator (q ++ v ++ e) = Some (tt, q ++ v ++ e) /\ partless n (q ++ v ++ e)) by (rewrite V, <- app_assoc; now apply article_silent). destruct S as (S & G & P).
  destruct (chain_many1 n (q ++ v ++ e) _ (act_only a) _ w refs S G P L) as (gs & M & N & C).
  { subst k n T. unfold pos_of, size. rewrite !app_length. cbn [length]. lia. }
  assert (F : ~ ends_in_colon T). { destruct (enters_dot e E) as (e' & -> & _). unfold T. rewrite !app_assoc. apply dot_no_colon. }
  assert (W : ws T = T) by (now apply article_solid).
  assert (TA : g_text_amendment n T = Some (node_with_act (fun a => GTextAmendment a gs (map trees parts)) g, [])).
  { unfold g_text_amendment, p_rule at 1. fold rep_step. rewrite W. unfold T. rewrite (bind_yes _ _ _ _ _ H), (bind_yes _ _ _ _ _ M), (bind_yes _ _ _ _ _ (replacements_many _ _ _ _ R E Q)), (bind_yes _ _ _ _ _ (enters_reads e E)). reflexivity. }
  assert (Pos : says_act a k (k + size x) m g).
  { destruct Y as (Y1 & Y2 & Y3). split; [exact Y1|]. split; [|exact Y3]. rewrite Y2. f_equal. f_equal; subst k n T; unfold pos_of, size; rewrite !app_length; cbn [length]; rewrite ?app_length; cbn [length]; lia. }
  eapply node_found; [|exact Pos|].
  - fold n. unfold g_start, p_rule at 1. do 5 apply or_yes. rewrite or_no; [apply to_end; rewrite W; exact TA|]. rewrite or_no; [apply no_colon_none, block_structural_colon; exact F|]. rewrite or_no; [apply no_colon_none, block_subtitle_colon; exact F|]. apply no_colon_none, block_colon; exact F.
  - cbn [convert_single_node]. now rewrite (text_converts _ _ _ _ _ _ _ parts Pos C), (act_refs_convert _ _ _ _ _ _ _ Pos C).
Qed.

(** * Titles of articles *)

(* single references make a list *)
Lemma one_filled last r f s e : filled last r f -> all_filled last [mk_outgoing s e r] [mk_outgoing s e f] f.
Proof. intros F. apply (af_next last s e r f); [exact F|constructor]. Qed.
Lemma one_last last k r w f : r_act r = None -> reference_written r w -> filled last r f -> chain_written last k w [mk_outgoing k (k + size w) f].
Proof. intros A R F. apply (reference_single r k) in R. rewrite A in R. exact (cw_last _ _ _ _ _ _ R (one_filled _ _ _ _ _ F)). Qed.
Lemma one_more last k r w f p s l : r_act r = None -> reference_written r w -> filled last r f -> separator p -> chain_written f (k + size w + size p) s l ->
  chain_written last k (w ++ p ++ s) (mk_outgoing k (k + size w) f :: l).
Proof. intros A R F P L. apply (reference_single r k) in R. rewrite A in R. exact (cw_more _ _ _ _ _ _ _ _ _ R (one_filled _ _ _ _ _ F) P L). Qed.
Lemma one_article_written i c : article_shape i -> sign_ending c -> reference_written (mk_ref None (RId i) RNone RNone RNone) (i ++ u8 ". §" ++ c).
Proof.
  intros I C. exists (u8 " " ++ i ++ u8 ". §" ++ c), [], [], []. split; [|repeat split; try (now left); now rewrite !app_nil_r].
  right. exists PArticle, (i ++ u8 ". §" ++ c). split; [reflexivity|]. split; [|reflexivity]. exists (i ++ u8 "."), c. split; [now apply (iw_one PArticle i)|]. split; [exact C|]. now rewrite <- app_assoc.
Qed.
Lemma one_article_chain a i c k : article_shape i -> sign_ending c ->
  chain_written (act_only a) k (i ++ u8 ". §" ++ c) [mk_outgoing k (k + size (i ++ u8 ". §" ++ c)) (mk_ref (Some a) (RId i) RNone RNone RNone)].
Proof.
  intros I C. apply (one_last _ k (mk_ref None (RId i) RNone RNone RNone)); [reflexivity|now apply one_article_written|].
  exists 1%nat. split; [split; [cbn; lia|split; [discriminate|]]|].
  - intros [|[|j]] J; [reflexivity|lia|lia].
  - intros [|[|[|[|[|j]]]]] J; try reflexivity.
Qed.
Lemma small_word c : hun_small c -> word_chr c.
Proof.
  intros [C|C]; [unfold is_small in C; split; [lia|cbn; intuition lia]|]. repeat (destruct C as [<-|C]; [split; [lia|cbn; intuition discriminate]|]). destruct C.
Qed.
Lemma title_word_words d q : ending d -> quote_article q -> words (u8 " cím" ++ d ++ q).
Proof.
  intros D Q. split.
  - apply Forall_app. split; [|apply Forall_app; split].
    + apply Forall_forall. intros c C. repeat (destruct C as [<-|C]; [split; [lia|cbn; intuition discriminate]|]). destruct C.
    + eapply Forall_impl; [|exact D]. apply small_word.
    + apply Forall_forall. intros c C. destruct Q as [<-|[<-|[]]]; repeat (destruct C as [<-|C]; [split; [lia|cbn; intuition discriminate]|]); destruct C.
  - intros x X H. apply (has_dot x _ X) in H. apply in_app_or in H as [H|H]; [cbn in H; intuition discriminate|]. apply in_app_or in H as [H|H].
    + unfold ending in D. rewrite Forall_forall in D. apply D in H. destruct H as [H|H]; [unfold is_small in H; lia|cbn in H; intuition discriminate].
    + destruct Q as [<-|[<-|[]]]; cbn in H; intuition discriminate.
Qed.
Lemma title_word_silent n d q x s : ending d -> quote_article q ->
  silent n (u8 " cím" ++ d ++ q ++ quoted x ++ s) /\ g_separator (u8 " cím" ++ d ++ q ++ quoted x ++ s) = Some (tt, u8 " cím" ++ d ++ q ++ quoted x ++ s) /\ partless n (u8 " cím" ++ d ++ q ++ quoted x ++ s).
Proof.
  intros D Q. assert (S : silent n (u8 " cím" ++ d ++ q ++ quoted x ++ s)).
  { replace (u8 " cím" ++ d ++ q ++ quoted x ++ s) with ((u8 " cím" ++ d ++ q) ++ quoted x ++ s) by (now rewrite <- !app_assoc). apply words_silent; [now apply title_word_words| |apply quoted_opens| |].
    - right. right. destruct Q as [<-|[<-|[]]]; [exists (u8 " cím" ++ d ++ u8 " a"), 32%N|exists (u8 " cím" ++ d ++ u8 " az"), 32%N]; (split; [now rewrite <- !app_assoc|reflexivity]).
    - right. exists 99%N. split; [right; now left|reflexivity].
    - left. reflexivity. }
  split; [exact S|]. split; [reflexivity|apply S].
Qed.
Lemma single_article_reads n i c s : article_shape i -> sign_ending c -> gap s ->
  exists j, g_single_article_reference n (u8 " " ++ i ++ u8 ". §" ++ c ++ s) = Some ((j, (pos_of n (i ++ u8 ". §" ++ c ++ s), pos_of n s)), s) /\ concat j = i.
Proof.
  intros I C G. destruct (PegProofs23.article_reads i (u8 "." ++ u8 " §" ++ c ++ s) I (stop_dot _)) as (j & J & E). exists j. split; [|exact E].
  assert (W : ws (i ++ u8 ". §" ++ c ++ s) = i ++ u8 ". §" ++ c ++ s).
  { assert (D : exists a t, i = a :: t /\ isspace_chr a = false). { destruct I as [m D|m b D B|b m Db D|b m b' Db D B]; [destruct (digits_head _ D) as (a & t & -> & A)|destruct (digits_head _ D) as (a & t & -> & A)|destruct (digits_head _ Db) as (a & t & -> & A)|destruct (digits_head _ Db) as (a & t & -> & A)]; cbn [app]; eexists; eexists; (split; [reflexivity|now apply digit_space]). }
    destruct D as (a & t & -> & A). cbn [app]. now apply ws_solid_head. }
  unfold g_single_article_reference. change (ws (u8 " " ++ i ++ u8 ". §" ++ c ++ s)) with (ws (i ++ u8 ". §" ++ c ++ s)).
  erewrite span_yes; [change (ws (u8 " " ++ i ++ u8 ". §" ++ c ++ s)) with (ws (i ++ u8 ". §" ++ c ++ s)); rewrite W; reflexivity|].
  change (ws (u8 " " ++ i ++ u8 ". §" ++ c ++ s)) with (ws (i ++ u8 ". §" ++ c ++ s)). rewrite W.
  unfold g_article_id, p_rule in J. assert (J' : g_article_id_group (i ++ u8 ". §" ++ c ++ s) = Some (j, u8 ". §" ++ c ++ s)) by (rewrite <- W at 1; exact J).
  rewrite (bind_yes _ _ _ _ _ J'). rewrite (bind_yes _ _ _ (u8 ".") (u8 " §" ++ c ++ s)) by reflexivity. destruct (sign_yes c s C G) as (x & X).
  assert (X' : g_article_suffix (u8 " §" ++ c ++ s) = Some (x, s)) by exact X. now rewrite (bind_yes _ _ _ _ _ X').
Qed.
Theorem title_amendment_found z u a x y m i c d q b b' v t e k k' : article_word z -> title_words u -> act_written a x y m -> k = size z + size u -> k' = k + size x + size y + 1 ->
  article_shape i -> sign_ending c -> ending d -> d <> [] -> quote_article q -> replacement_written b b' v -> text_word t -> enters e ->
  grammar_analyzer (z ++ u ++ x ++ y ++ u8 " " ++ (i ++ u8 ". §" ++ c) ++ u8 " cím" ++ d ++ q ++ v ++ t ++ e) = Some (mk_analysis
    [mk_outgoing k (k + size x) (act_only a); mk_outgoing k' (k' + size (i ++ u8 ". §" ++ c)) (mk_ref (Some a) (RId i) RNone RNone RNone)]
    [ArticleTitleAmendment (mk_ref (Some a) (RId i) RNone RNone RNone) (str_strip b) (str_strip b')] m).
Proof.
  intros Z Tw A K K' I C D Nd Q R Tx E. set (T := z ++ u ++ x ++ y ++ u8 " " ++ (i ++ u8 ". §" ++ c) ++ u8 " cím" ++ d ++ q ++ v ++ t ++ e). set (n := Z.of_nat (length T)).
  pose proof (one_article_chain a i c k' I C) as L. set (rest := u8 " cím" ++ d ++ q ++ v ++ t ++ e) in *.
  pose proof (chain_starts _ _ _ _ rest L) as Bt. destruct (replacement_quoted _ _ _ R) as (o & V).
  destruct (the_act_reads n z u a x y m (u8 " " ++ (i ++ u8 ". §" ++ c) ++ rest) Z Tw A (gap_space _) (starts_bracket _ Bt) (starts_no_more _ Bt) (starts_no_effect _ Bt)) as (g & H & Y).
  assert (S : silent n rest /\ g_separator rest = Some (tt, rest) /\ partless n rest) by (unfold rest; rewrite V, <- app_assoc; now apply title_word_silent). destruct S as (S & G & P).
  assert (F : ~ ends_in_colon T). { destruct (enters_dot e E) as (e' & -> & _). unfold T, rest. rewrite !app_assoc. apply dot_no_colon. }
  assert (W : ws T = T) by (now apply article_solid).
  assert (TA : g_text_amendment n T = None).
  { destruct (chain_many1 n rest _ (act_only a) _ _ _ S G P L) as (gs & M & _); [subst k' k n T; unfold pos_of, size; rewrite !app_length; cbn [length]; lia|].
    unfold g_text_amendment, p_rule at 1. fold rep_step. rewrite W. unfold T. rewrite (bind_yes _ _ _ _ _ H), (bind_yes _ _ _ _ _ M). apply bind_no, many1_no. unfold rep_step, g_text_amendment_part, p_rule, rest. apply bind_no, bind_no.
    unfold g_replaced. change (ws (u8 " cím" ++ d ++ q ++ v ++ t ++ e)) with (u8 "cím" ++ d ++ q ++ v ++ t ++ e). rewrite (bind_yes _ _ _ None (u8 "cím" ++ d ++ q ++ v ++ t ++ e)) by reflexivity. apply bind_no, quote_no. discriminate. }
  destruct (single_article_reads n i c rest I C ltac:(left; reflexivity)) as (j & J & Ej).
  assert (X : exists b, p_rule (p_suffixed (u8 "cím")) rest = Some (b, q ++ v ++ t ++ e)).
  { exists (u8 "cím" ++ d). unfold p_rule, rest. change (ws (u8 " cím" ++ d ++ q ++ v ++ t ++ e)) with (u8 "cím" ++ d ++ q ++ v ++ t ++ e). apply suffixed_yes; [exact Nd|now apply smalls_b|]. destruct Q as [<-|[<-|[]]]; reflexivity. }
  destruct X as (xb & X).
  assert (Qa : quote_at (q ++ v ++ t ++ e) (v ++ t ++ e)) by (rewrite V, <- app_assoc; now apply quote_at_article).
  assert (TT : exists tw, p_toks [u8 "szöveggel"; u8 "szöveg"; u8 "szövegrész"] (t ++ e) = Some (tw, e)) by (unfold text_word in Tx; destruct Tx as [<-|[<-|[<-|[]]]]; (destruct E as [<-|[<-|[]]]; eexists; reflexivity)). destruct TT as (tw & TT).
  assert (TI : g_article_title_amendment n T = Some (node_with_act (fun a => GArticleTitleAmendment a j (pos_of n (i ++ u8 ". §" ++ c ++ rest), pos_of n rest) (quote_tree b) (quote_tree b')) g, [])).
  { unfold g_article_title_amendment, p_rule at 1. rewrite W. unfold T. rewrite (bind_yes _ _ _ _ _ H). assert (J' : g_single_article_reference n (u8 " " ++ (i ++ u8 ". §" ++ c) ++ rest) = Some ((j, (pos_of n (i ++ u8 ". §" ++ c ++ rest), pos_of n rest)), rest)) by (rewrite <- !app_assoc; exact J).
    rewrite (bind_yes _ _ _ _ _ J'), (bind_yes _ _ _ _ _ X), (bind_yes _ _ _ _ _ (replaced_reads _ _ _ _ _ R Qa)), (bind_yes _ _ _ _ _ TT), (bind_yes _ _ _ _ _ (enters_reads e E)). reflexivity. }
  assert (Pos : says_act a k (k + size x) m g).
  { destruct Y as (Y1 & Y2 & Y3). split; [exact Y1|]. split; [|exact Y3]. rewrite Y2. f_equal. f_equal; subst k n T; unfold pos_of, size; rewrite !app_length; cbn [length]; rewrite ?app_length; cbn [length]; lia. }
  eapply node_found; [|exact Pos|].
  - fold n. unfold g_start, p_rule at 1. do 4 apply or_yes. rewrite or_no; [apply to_end; rewrite W; exact TI|]. rewrite or_no; [unfold to_the_end; apply bind_no; rewrite W; exact TA|]. rewrite or_no; [apply no_colon_none, block_structural_colon; exact F|]. rewrite or_no; [apply no_colon_none, block_subtitle_colon; exact F|]. apply no_colon_none, block_colon; exact F.
  - cbn [convert_single_node]. destruct (title_converts _ _ _ _ _ i j (pos_of n (i ++ u8 ". §" ++ c ++ rest), pos_of n rest) b b' Pos Ej) as [-> ->]. cbn [fst snd]. do 2 f_equal. do 3 f_equal.
    f_equal; subst k' k n T; unfold pos_of, size; rewrite !app_length; cbn [length]; rewrite ?app_length; cbn [length]; lia.
Qed.

(** * Repeals *)

Definition repeal_word (h : pystr) : Prop := In h [u8 "Nem lép hatályba"; u8 "Hatályát veszti"].
Lemma repealed_reads n h z u a x y m s : repeal_word h -> quote_article z -> words u -> spaced u -> act_written a x y m -> gap s -> no_bracket s -> no_more s -> p_tok in_effect s = None ->
  exists g, g_repealed_act n (h ++ z ++ u ++ x ++ y ++ s) = Some (g, s) /\ says_act a (pos_of n (x ++ y ++ s)) (pos_of n (y ++ s)) m g.
Proof.
  intros H Z W Sp A G B M I. destruct (act_reads n a x y m s A G B M) as (g & R & Y). exists g. split; [|exact Y].
  pose proof (act_opens 0 (x ++ y) _ m s (ar_alone 0 a x y m A)) as O. rewrite <- app_assoc in O. destruct (act_begins a x y m (y ++ s) A) as (d & t & V & D). apply act_head_facts in D as (D & _).
  assert (E : ws (x ++ y ++ s) = x ++ y ++ s) by (rewrite V; now apply ws_solid_head).
  destruct (title_reads n u (x ++ y ++ s) g s W (or_intror Sp) O E R I) as (q & T & Q). unfold g_repealed_act.
  assert (X : exists b, p_toks [u8 "Nem lép hatályba"; u8 "Hatályát veszti"] (h ++ z ++ u ++ x ++ y ++ s) = Some (b, z ++ u ++ x ++ y ++ s)) by (unfold repeal_word in H; destruct H as [<-|[<-|[]]]; (destruct Z as [<-|[<-|[]]]; eexists; reflexivity)).
  assert (X' : exists b, g_az (z ++ u ++ x ++ y ++ s) = Some (b, u ++ x ++ y ++ s)) by (destruct Z as [<-|[<-|[]]]; eexists; reflexivity).
  destruct X as (b & X), X' as (b' & X'). rewrite (bind_yes _ _ _ _ _ X), (bind_yes _ _ _ _ _ X'), (bind_yes _ _ _ _ _ T). rewrite <- (act_blind n q), Q. exact R.
Qed.
Lemma repeal_found h z u a x y m w refs texts v k : repeal_word h -> quote_article z -> words u -> spaced u -> act_written a x y m -> k = size h + size z + size u ->
  chain_written (act_only a) (k + size x + size y + 1) w refs -> (texts = [] /\ v = []) \/ (exists q v', v = q ++ v' /\ quote_article q /\ texts_written texts v') ->
  grammar_analyzer (h ++ z ++ u ++ x ++ y ++ u8 " " ++ w ++ v ++ u8 ".") = Some (mk_analysis (mk_outgoing k (k + size x) (act_only a) :: refs)
      (flat_map (fun o => match texts with [] => [Repeal (ARef (or_reference o)) None] | _ => map (fun t => Repeal (ARef (or_reference o)) (Some (str_strip t))) texts end) refs) m).
Proof.
  intros Hw Z Wu Su A K L X. set (T := h ++ z ++ u ++ x ++ y ++ u8 " " ++ w ++ v ++ u8 "."). set (n := Z.of_nat (length T)).
  pose proof (chain_starts _ _ _ _ (v ++ u8 ".") L) as Bt.
  destruct (repealed_reads n h z u a x y m (u8 " " ++ w ++ v ++ u8 ".") Hw Z Wu Su A (gap_space _) (starts_bracket _ Bt) (starts_no_more _ Bt) (starts_no_effect _ Bt)) as (g & H & Y).
  assert (S : silent n (v ++ u8 ".") /\ g_separator (v ++ u8 ".") = Some (tt, v ++ u8 ".") /\ partless n (v ++ u8 ".")).
  { destruct X as [[_ ->]|(q & v' & -> & Q & R)]; [apply dot_silent|]. destruct (texts_quoted _ _ R) as (b & c & ->). rewrite <- !app_assoc. now apply article_silent. }
  assert (TM : p_many text_step (v ++ u8 ".") = Some (map quote_tree texts, u8 ".")).
  { destruct X as [[-> ->]|(q & v' & -> & Q & R)]; [reflexivity|]. rewrite <- app_assoc. now apply texts_many. }
  destruct S as (S & G & P). destruct (chain_many1 n (v ++ u8 ".") _ (act_only a) _ w refs S G P L) as (gs & M & N & C).
  { subst k n T. unfold pos_of, size. rewrite !app_length. cbn [length]. lia. }
  assert (W : ws T = T) by (unfold T, repeal_word in *; destruct Hw as [<-|[<-|[]]]; reflexivity).
  assert (TA : g_repeal n T = Some (node_with_act (fun a => GSimpleRepeal a gs (map quote_tree texts)) g, [])).
  { unfold g_repeal, p_rule at 1. fold text_step. rewrite W. unfold T. rewrite (bind_yes _ _ _ _ _ H), (bind_yes _ _ _ _ _ M), (bind_yes _ _ _ _ _ TM). reflexivity. }
  assert (Pos : says_act a k (k + size x) m g).
  { destruct Y as (Y1 & Y2 & Y3). split; [exact Y1|]. split; [|exact Y3]. rewrite Y2. f_equal. f_equal; subst k n T; unfold pos_of, size; rewrite !app_length; cbn [length]; rewrite ?app_length; cbn [length]; lia. }
  assert (NA : g_the_act n T = None). { unfold g_the_act. apply bind_no. unfold T, repeal_word in *. destruct Hw as [<-|[<-|[]]]; reflexivity. }
  eapply node_found; [|exact Pos|].
  - fold n. unfold g_start, p_rule at 1. do 2 apply or_yes. rewrite or_no; [apply to_end; rewrite W; exact TA|]. rewrite W.
    rewrite or_no; [unfold to_the_end, g_enforcement_date, p_rule; apply bind_no; rewrite W; apply bind_no; unfold T, repeal_word in *; destruct Hw as [<-|[<-|[]]]; reflexivity|].
    rewrite or_no; [unfold to_the_end, g_article_title_amendment, p_rule at 1; apply bind_no; rewrite W; now apply bind_no|].
    rewrite or_no; [unfold to_the_end, g_text_amendment, p_rule at 1; apply bind_no; rewrite W; now apply bind_no|].
    rewrite or_no; [unfold to_the_end, g_block_amendment_structural, p_rule at 1; apply bind_no; rewrite W; now apply bind_no|].
    rewrite or_no; [unfold to_the_end, g_block_amendment_with_subtitle, p_rule at 1; apply bind_no; rewrite W; now apply bind_no|].
    unfold to_the_end, g_block_amendment, p_rule at 1; apply bind_no; rewrite W; now apply bind_no.
  - cbn [convert_single_node]. now rewrite (repeal_converts _ _ _ _ _ _ _ texts Pos C), (act_refs_convert _ _ _ _ _ _ _ Pos C).
Qed.
Theorem change_found text refs sds m : change_written text refs sds m -> grammar_analyzer text = Some (mk_analysis refs sds m).
Proof.
  intros W. destruct W as [z u a x y m w refs q parts v e k Z Tw A K L Q R E|z u a x y m i c d q b b' v t e k k' Z Tw A K K' I C D Nd Q R Tx E|h z u a x y m w refs k Hw Z Wu Su A K L|h z u a x y m w refs q texts v k Hw Z Wu Su A K L Q R].
  - now apply text_amendment_found.
  - now apply title_amendment_found.
  - pose proof (repeal_found h z u a x y m w refs [] [] k Hw Z Wu Su A K L (or_introl (conj eq_refl eq_refl))) as F. refine (eq_trans F _). reflexivity.
  - pose proof (repeal_found h z u a x y m w refs texts (q ++ v) k Hw Z Wu Su A K L ltac:(right; eauto)) as F. rewrite <- !app_assoc in F. rewrite F. do 2 f_equal. destruct R; reflexivity.
Qed.
