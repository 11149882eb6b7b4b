(* Block amendments, read forwards. *)
From Coq Require Import Lia.
From Verif Require Import PyBase PyBaseFacts UnicodeAlnum NumModel IdModel LineModel DateModel RefModel TreeModel StructModel SemModel GramModel GramSpec PegModel PegSpec PegSpec2 PegSpec3 PegProofs PegProofs2 PegProofs7 PegProofs10 PegProofs13 PegProofs14 PegProofs22 PegProofs23 PegProofs24 PegProofs25 PegProofs26 PegProofs27 PegProofs28 PegProofs29 PegProofs30 PegProofs31 PegProofs32 PegProofs33 CiteSpec CiteProofs CiteProofs2 CiteProofs4 CiteProofs5.
Local Open Scope Z_scope.

Section Total.
Variable total : Z.
Notation next := (u8 " a következő") (only parsing).

(** * Endings *)

Ltac ending_case a b :=
  apply (words_silent total a b); [now apply words_of|right; right; exists (removelast a), 32%N; split; [reflexivity|reflexivity]| |right; eexists; split; [right; left; reflexivity|reflexivity]|cbn; tauto];
  right; eexists; eexists; split; [reflexivity|]; split; [reflexivity|]; split; [discriminate|]; split; [unfold is_dash; cbn; intuition discriminate|]; split; intros r; discriminate.
Lemma amendment_silent f : amendment_ending f -> silent total (f ++ u8 ":").
Proof.
  intros [<-|[<-|[<-|[]]]].
  - ending_case (u8 " helyébe ") (u8 "a következő rendelkezés lép:").
  - ending_case (u8 " helyébe ") (u8 "a következő rendelkezések lépnek:").
  - ending_case (u8 " a ") (u8 "következő szöveggel lép hatályba:").
Qed.
Lemma insertion_silent f : insertion_ending f -> silent total (f ++ u8 ":").
Proof.
  intros [<-|[<-|[]]].
  - ending_case (u8 " egészül ") (u8 "ki:").
  - ending_case (u8 " kiegészülve ") (u8 "lép hatályba:").
Qed.
Lemma amendment_yes f : amendment_ending f -> exists x, g_amendment_suffix (f ++ u8 ":") = Some (x, u8 ":").
Proof. intros [<-|[<-|[<-|[]]]]; eexists; reflexivity. Qed.
Lemma insertion_yes f : insertion_ending f -> exists x, g_insertion_suffix (f ++ u8 ":") = Some (x, u8 ":").
Proof. intros [<-|[<-|[]]]; eexists; reflexivity. Qed.
Lemma starts_no_effect t : starts t -> p_tok in_effect (u8 " " ++ t) = None.
Proof.
  intros B. apply tok_none. intros r. change (ws (u8 " " ++ t)) with (ws t). rewrite (proj2 (starts_opens t B)). intros H. destruct B as [n z N _|n z N _|c z C|c z C Z|c d z C F Z].
  - destruct (digits_head n N) as (c & m & -> & C). injection H as -> _. discriminate C.
  - destruct (digits_head n N) as (c & m & -> & C). injection H as -> _. discriminate C.
  - discriminate H.
  - destruct z as [|e z]; [discriminate H|]. injection H as _ -> _. cbn in Z. intuition discriminate.
  - destruct z as [|e z]; [discriminate H|]. injection H as _ _ -> _. cbn in Z. intuition discriminate.
Qed.

(** * How an insertion begins *)

(* what is amended, then the word, then what is inserted *)
Lemma insertion_prefix act k i out s : insertion_written act k i out -> pos_of total (i ++ s) = k ->
  exists j x, i = j ++ next ++ x /\ (exists n p w v s', level_at total n w p s' /\ w <> [] /\ x = w ++ v) /\ (j = [] \/ exists w out', reference_listed None (k + 1) w out' /\ j = u8 " " ++ w).
Proof.
  assert (L : forall n p w s', level_at total n w p s' -> w <> [] -> exists t, w = 32%N :: t) by (intros n p w s' W N; destruct (level_shape total n w p s' W N) as (x & -> & _); eauto).
  assert (R : forall a p q la lp lq t, level_listed 1 k a la -> level_listed 2 (k + size a) p lp -> level_listed 3 (k + size (a ++ p)) q lq -> a ++ p ++ q = u8 " " ++ t -> exists out', reference_listed None (k + 1) t out').
  { intros a p q la lp lq t A P Q E. destruct (cites_total 1 [la; lp; lq; []] (no_parts None) (k + 1) (k + 1 + size t)) as (out' & C & _). exists out'. exists a, p, q, [], la, lp, lq, [].
    replace (k + 1 - 1) with k by lia. split; [exact A|]. split; [exact P|]. split; [rewrite <- Z.add_assoc, <- size_app; exact Q|]. split; [now left|]. split; [rewrite app_nil_r; exact E|]. split; [now left|exact C]. }
  assert (Z0 : forall n k', level_listed n k' [] []) by (intros; now left).
  intros I P. pose proof (insertion_levels total act k i out s I P) as (a & p & q & r & _ & H). assert (LL : forall n w o s', level_at total n w o s' -> level_listed n (pos_of total (w ++ s')) w o) by (intros; assumption).
  destruct H as [(w & v & -> & W & N & V & -> & ->)|[(w & v & -> & W & V & N & -> & ->)|[(w & v & z & -> & W & V & D & Z & N & ->)|(w & v & z & x & -> & W & NW & V & Z & NZ & X & NX)]]]; rewrite <- !app_assoc in P.
  - exists [], (w ++ v). split; [reflexivity|]. split; [exists 1%nat, a, w, v, (v ++ s); auto|now left].
  - exists w, v. split; [reflexivity|]. split; [exists 2%nat, p, v, [], s; rewrite app_nil_r; auto|]. destruct (listed_nonempty w) as [->|NW]; [now left|]. right. destruct (L _ _ _ _ W NW) as (t & ->). exists t.
    destruct (R (32%N :: t) [] [] a [] [] t) as (out' & O); [apply LL in W; rewrite P in W; exact W|apply Z0|apply Z0|now rewrite !app_nil_r|]. eauto.
  - exists (w ++ v), z. rewrite <- app_assoc. split; [reflexivity|]. split; [exists 3%nat, q, z, [], s; rewrite app_nil_r; auto|]. destruct (listed_nonempty w) as [->|NW]; [left; now apply D|]. right. destruct (L _ _ _ _ W NW) as (t & ->). exists (t ++ v).
    destruct (R (32%N :: t) v [] a p [] (t ++ v)) as (out' & O); [apply LL in W; rewrite P in W; exact W| |apply Z0|now rewrite !app_nil_r|eauto]. apply LL in V. replace (k + size (32%N :: t)) with (pos_of total (v ++ next ++ z ++ s)); [exact V|]. rewrite (pos_app total (32%N :: t)) in P. lia.
  - exists (w ++ v ++ z), x. rewrite <- !app_assoc. split; [reflexivity|]. split; [exists 4%nat, r, x, [], s; rewrite app_nil_r; auto|]. right. destruct (L _ _ _ _ W NW) as (t & ->). exists (t ++ v ++ z).
    destruct (R (32%N :: t) v z a p q (t ++ v ++ z)) as (out' & O); [apply LL in W; rewrite P in W; exact W| | |reflexivity|eauto].
    + apply LL in V. replace (k + size (32%N :: t)) with (pos_of total (v ++ z ++ next ++ x ++ s)); [exact V|]. rewrite (pos_app total (32%N :: t)) in P. lia.
    + apply LL in Z. replace (k + size ((32%N :: t) ++ v)) with (pos_of total (z ++ next ++ x ++ s)); [exact Z|]. rewrite size_app. rewrite (pos_app total (32%N :: t)), (pos_app total v) in P. lia.
Qed.
(* it does not follow that something is replaced *)
Lemma next_no_amendment k p w s s' : level_at total k w p s -> w <> [] -> g_amendment_suffix (next ++ w ++ s') = None.
Proof.
  intros W N. unfold g_amendment_suffix, p_rule. rewrite or_no; [|reflexivity]. apply tok_none. intros r H. destruct (level_shape total k w p s W N) as (x & -> & BB). pose proof (proj1 (BB s')) as B. clear BB. rewrite ws_idem in H. change (u8 "a következő " ++ x ++ s' = u8 "a következő szöveggel lép hatályba" ++ r) in H.
  cbn [app] in H. injection H as H. revert H. generalize (x ++ s') B. clear. intros b B H. destruct B as [n z N _|n z N _|c z C|c z C Z|c d z C F Z].
  - destruct (digits_head n N) as (c & m & -> & C). injection H as -> _. discriminate C.
  - destruct (digits_head n N) as (c & m & -> & C). injection H as -> _. discriminate C.
  - discriminate H.
  - destruct z as [|e z]; [discriminate H|]. injection H as _ -> _. cbn in Z. intuition discriminate.
  - destruct z as [|e z]; [discriminate H|]. injection H as _ _ -> _. cbn in Z. intuition discriminate.
Qed.
Lemma next_any k p w s s' : level_at total k w p s -> w <> [] -> partless total (next ++ w ++ s').
Proof.
  intros W N. destruct (level_shape total k w p s W N) as (x & -> & B). destruct (starts_opens _ (proj1 (B s'))) as [O _].
  apply (word_quiet total next (x ++ s')); [reflexivity|exists 97%N; split; [cbn; tauto|reflexivity]|exact O].
Qed.
Lemma next_silent k p w s s' : level_at total k w p s -> w <> [] -> silent total (next ++ w ++ s').
Proof. intros W N. split; [exact (next_any k p w s s' W N)|]. destruct (next_mild (w ++ s')) as [A B]. now split. Qed.
Definition simple_amendment : parser (option g_reference * option g_reference) :=
  x <~ g_reference_rule total ;; g_amendment_suffix ;~ p_tok (u8 ":") ;~ p_ret (Some x, None).
Lemma reference_space s : g_reference_rule total (u8 " " ++ s) = g_reference_rule total s.
Proof. rewrite <- reference_rule_ws. change (ws (u8 " " ++ s)) with (ws s). apply reference_rule_ws. Qed.
Lemma insertion_no_amendment act k i out s : insertion_written act k i out -> pos_of total (i ++ s) = k -> simple_amendment (i ++ s) = None.
Proof.
  intros W K. destruct (insertion_prefix act k i out s W K) as (j & x & -> & (n & p & w & v & s' & L & N & ->) & D). rewrite <- !app_assoc in *. unfold simple_amendment. destruct D as [->|(w' & out' & R & ->)].
  - apply bind_no. apply reference_no. exact (next_any n p w s' (v ++ s) L N).
  - destruct (listed_reference_reads total None (k + 1) w' out' (next ++ w ++ v ++ s) R) as (g & G & _); [rewrite <- app_assoc in K; rewrite (pos_app total (u8 " ")) in K; change (size (u8 " ")) with 1 in K; lia|exact (next_silent n p w s' _ L N)|].
    rewrite <- app_assoc. rewrite <- reference_space in G. rewrite (bind_yes _ _ _ _ _ G). apply bind_no. exact (next_no_amendment n p w s' _ L N).
Qed.
Lemma insertion_starts act k i out s : insertion_written act k i out -> pos_of total (i ++ s) = k -> gap (i ++ s) /\ no_bracket (i ++ s) /\ no_more (i ++ s) /\ p_tok in_effect (i ++ s) = None.
Proof.
  intros W K. destruct (insertion_prefix act k i out s W K) as (j & x & -> & _ & D). rewrite <- !app_assoc. destruct D as [->|(w' & out' & R & ->)].
  - split; [now left|]. split; [left; discriminate|]. split; [|reflexivity]. intros e q I H. repeat (destruct I as [<-|I]; [discriminate H|]). destruct I.
  - pose proof (reference_starts None (k + 1) w' out' (next ++ x ++ s) R) as B. rewrite <- app_assoc. split; [now left|]. split; [now apply starts_bracket|]. split; [now apply starts_no_more|now apply starts_no_effect].
Qed.

(** * Amendments *)

Lemma amendment_reads act k w out f : reference_listed act k w out -> pos_of total (w ++ f ++ u8 ":") = k -> amendment_ending f ->
  exists g, simple_amendment (u8 " " ++ w ++ f ++ u8 ":") = Some ((Some g, None), []) /\ convert_single_in_text_reference act g = Ok out.
Proof.
  intros R K F. destruct (listed_reference_reads total act k w out (f ++ u8 ":") R K (amendment_silent f F)) as (g & G & C). exists g. split; [|exact C]. destruct (amendment_yes f F) as (x & X).
  unfold simple_amendment. rewrite <- reference_space in G. now rewrite (bind_yes _ _ _ _ _ G), (bind_yes _ _ _ _ _ X).
Qed.
Definition simple_insertion : parser (option g_reference * option g_reference) :=
  x <~ g_insertion_reference total ;; g_insertion_suffix ;~ p_tok (u8 ":") ;~ p_ret (None, Some x).
Lemma inserted_reads act k i out f : insertion_written act k i out -> pos_of total (i ++ f ++ u8 ":") = k -> insertion_ending f ->
  exists g, simple_insertion (i ++ f ++ u8 ":") = Some ((None, Some g), []) /\ convert_single_in_text_reference act g = Ok out.
Proof.
  intros R K F. destruct (insertion_reads total act k i out (f ++ u8 ":") R K (insertion_silent f F)) as (g & G & C). exists g. split; [|exact C]. destruct (insertion_yes f F) as (x & X).
  unfold simple_insertion. now rewrite (bind_yes _ _ _ _ _ G), (bind_yes _ _ _ _ _ X).
Qed.
Lemma block_reads z u a x y m s am ins : article_word z -> title_words u -> act_written a x y m -> gap s -> no_bracket s -> no_more s -> p_tok in_effect s = None -> unplaced s ->
  simple_amendment s = Some ((am, ins), []) \/ (simple_amendment s = None /\ simple_insertion s = Some ((am, ins), [])) ->
  exists g, g_start total (z ++ u ++ x ++ y ++ s) = Some (node_with_act (fun a => GBlockAmendment a am ins) g, []) /\
    says_act a (pos_of total (x ++ y ++ s)) (pos_of total (y ++ s)) m g.
Proof.
  intros Z U A G B M I P S. destruct (the_act_reads total z u a x y m s Z U A G B M I) as (g & T & Y). exists g. split; [|exact Y].
  assert (W : ws (z ++ u ++ x ++ y ++ s) = z ++ u ++ x ++ y ++ s) by (unfold article_word in Z; destruct Z as [<-|[<-|[<-|[<-|[]]]]]; reflexivity).
  unfold g_start, p_rule at 1. rewrite W. do 8 apply or_yes. unfold to_the_end. rewrite (bind_yes _ _ _ (node_with_act (fun a => GBlockAmendment a am ins) g) []); [reflexivity|].
  unfold g_block_amendment, p_rule at 1. rewrite W. rewrite (bind_yes _ _ _ _ _ T), (bind_yes _ _ _ _ _ (structural_none s P)). fold simple_amendment simple_insertion.
  apply (map_yes (fun x => node_with_act (fun a => GBlockAmendment a (fst x) (snd x)) g) _ _ (am, ins)). apply or_yes. destruct S as [S|[S S']]; [now apply or_yes|]. now rewrite or_no.
Qed.
End Total.

Lemma block_converts a k k' m h am ins g o : says_act a k k' m h -> convert_single_in_text_reference (Some a) g = Ok [o] -> (am, ins) = (Some g, None) \/ (am, ins) = (None, Some g) ->
  convert_depth_first (node_with_act (fun a => GBlockAmendment a am ins) h) =
  Ok (map CAbbreviation m ++ [COutgoing (mk_outgoing k k' (mk_ref (Some a) RNone RNone RNone RNone)); COutgoing o; CSemantic (BlockAmendment (ARef (or_reference o)) (match ins with Some _ => true | None => false end))]).
Proof.
  intros (I & J & N) C D. unfold node_with_act. cbn [convert_depth_first convert_single_node]. rewrite N. cbn [bind].
  assert (O : block_to_outgoing h am ins = Ok [mk_outgoing k k' (mk_ref (Some a) RNone RNone RNone RNone); o]).
  { unfold block_to_outgoing, act_outgoing. rewrite I. cbn [bind]. rewrite J. cbn [bind fst snd]. destruct D as [[= -> ->]|[= -> ->]]; cbn [convert_potential_in_text_reference bind]; rewrite C; reflexivity. }
  assert (B : block_to_block h am ins = Ok [BlockAmendment (ARef (or_reference o)) (match ins with Some _ => true | None => false end)]).
  { unfold block_to_block, convert_potential_reference. rewrite I. cbn [bind]. destruct D as [[= -> ->]|[= -> ->]]; cbn [convert_potential_in_text_reference bind]; rewrite C; reflexivity. }
  rewrite O, B. cbn. now rewrite app_nil_r.
Qed.
Lemma conversions_of l m o o' sd : l = map CAbbreviation m ++ [COutgoing o; COutgoing o'; CSemantic sd] -> mk_analysis (all_references l) (semantic_data_of l) (act_id_abbreviations l) = mk_analysis [o; o'] [sd] m.
Proof.
  intros ->. assert (K : all_references (map CAbbreviation m ++ [COutgoing o; COutgoing o'; CSemantic sd]) = [o; o'] /\ semantic_data_of (map CAbbreviation m ++ [COutgoing o; COutgoing o'; CSemantic sd]) = [sd] /\
    act_id_abbreviations (map CAbbreviation m ++ [COutgoing o; COutgoing o'; CSemantic sd]) = m).
  { unfold all_references, semantic_data_of, act_id_abbreviations. induction m as [|x m (A & B & C)]; [now split|]. cbn [map app flat_map] in *. now rewrite A, B, C. }
  destruct K as (-> & -> & ->). reflexivity.
Qed.
Lemma conversions_act m o : let l := map CAbbreviation m ++ [COutgoing o] in mk_analysis (all_references l) (semantic_data_of l) (act_id_abbreviations l) = mk_analysis [o] [] m.
Proof.
  cbv zeta. assert (K : all_references (map CAbbreviation m ++ [COutgoing o]) = [o] /\ semantic_data_of (map CAbbreviation m ++ [COutgoing o]) = [] /\ act_id_abbreviations (map CAbbreviation m ++ [COutgoing o]) = m).
  { unfold all_references, semantic_data_of, act_id_abbreviations. induction m as [|x m (A & B & C)]; [now split|]. cbn [map app flat_map] in *. now rewrite A, B, C. }
  destruct K as (-> & -> & ->). reflexivity.
Qed.
Lemma lost_converts a k k' m h am ins g out : says_act a k k' m h -> convert_single_in_text_reference (Some a) g = Ok out -> length out <> 1%nat -> (am, ins) = (Some g, None) \/ (am, ins) = (None, Some g) ->
  convert_depth_first (node_with_act (fun a => GBlockAmendment a am ins) h) = Ok (map CAbbreviation m ++ [COutgoing (mk_outgoing k k' (mk_ref (Some a) RNone RNone RNone RNone))]).
Proof.
  intros (I & J & N) C L D. unfold node_with_act. cbn [convert_depth_first convert_single_node]. rewrite N. cbn [bind].
  assert (P : match out with [o] => Ok (Some o) | _ => Ok None end = Ok None) by (destruct out as [|o [|o' l]]; [reflexivity|now destruct L|reflexivity]).
  assert (O : block_to_outgoing h am ins = Ok [mk_outgoing k k' (mk_ref (Some a) RNone RNone RNone RNone)]).
  { unfold block_to_outgoing, act_outgoing. rewrite I. cbn [bind]. rewrite J. cbn [bind fst snd]. destruct D as [[= -> ->]|[= -> ->]]; cbn [convert_potential_in_text_reference bind]; rewrite C; cbn [bind]; rewrite P; reflexivity. }
  assert (B : block_to_block h am ins = Ok []).
  { unfold block_to_block, convert_potential_reference. rewrite I. cbn [bind]. destruct D as [[= -> ->]|[= -> ->]]; cbn [convert_potential_in_text_reference bind]; rewrite C; cbn [bind]; rewrite P; reflexivity. }
  rewrite O, B. cbn. now rewrite ?app_nil_r.
Qed.
Lemma amendment_parsed text act out new m : amendment_written text act out new m ->
  exists a h am ins g, g_start (Z.of_nat (length text)) text = Some (node_with_act (fun a => GBlockAmendment a am ins) h, []) /\ says_act a (or_start act) (or_end act) m h /\ act = mk_outgoing (or_start act) (or_end act) (act_only a) /\
    convert_single_in_text_reference (Some a) g = Ok out /\ (am, ins) = (if new then (None, Some g) else (Some g, None)).
Proof.
  intros W. destruct W as [z u a x y m w out f k Z Tw A -> R P F|z u a x y m i out f k Z Tw A -> R P F].
  - set (T := z ++ u ++ x ++ y ++ u8 " " ++ w ++ f ++ u8 ":"). set (n := Z.of_nat (length T)). pose proof (reference_starts _ _ w out (f ++ u8 ":") R) as Bt.
    assert (K : pos_of n T = 0) by (unfold pos_of, n; lia). unfold T in K. rewrite !pos_app in K. change (size (u8 " ")) with 1 in K.
    destruct (amendment_reads n _ _ w out f R) as (g & G & C); [rewrite !pos_app; lia|exact F|]. assert (PP : unplaced (u8 " " ++ w ++ f ++ u8 ":")).
    { apply (unplaced_apart []); [now apply unplaced_check|]. unfold amendment_ending in F. destruct F as [<-|[<-|[<-|[]]]]; cbn [app]; (apply unplaced_apart; [exact P|now apply unplaced_check]). }
    destruct (block_reads n z u a x y m _ _ _ Z Tw A (gap_space _) (starts_bracket _ Bt) (starts_no_more _ Bt) (starts_no_effect _ Bt) PP (or_introl G)) as (h & H & Y).
    exists a, h, (Some g), None, g. split; [exact H|]. split; [|auto]. cbn [or_start or_end]. change (32%N :: w ++ f ++ u8 ":") with (u8 " " ++ w ++ f ++ u8 ":") in Y. rewrite !pos_app in Y. change (size (u8 " ")) with 1 in Y.
    match type of Y with says_act _ ?p ?q _ _ => replace p with (size z + size u) in Y by lia; replace q with (size z + size u + size x) in Y by lia end. exact Y.
  - set (T := z ++ u ++ x ++ y ++ i ++ f ++ u8 ":"). set (n := Z.of_nat (length T)). assert (K : pos_of n T = 0) by (unfold pos_of, n; lia). unfold T in K. rewrite !pos_app in K.
    assert (K' : pos_of n (i ++ f ++ u8 ":") = size z + size u + size x + size y) by (rewrite !pos_app; lia).
    destruct (inserted_reads n _ _ i out f R K' F) as (g & G & C). assert (PP : unplaced (i ++ f ++ u8 ":")).
    { unfold insertion_ending in F. destruct F as [<-|[<-|[]]]; cbn [app]; (apply unplaced_apart; [exact P|now apply unplaced_check]). }
    destruct (insertion_starts n _ _ i out (f ++ u8 ":") R K') as (S1 & S2 & S3 & S4).
    destruct (block_reads n z u a x y m _ _ _ Z Tw A S1 S2 S3 S4 PP (or_intror (conj (insertion_no_amendment n _ _ i out _ R K') G))) as (h & H & Y).
    exists a, h, None, (Some g), g. split; [exact H|]. split; [|auto]. cbn [or_start or_end]. rewrite !pos_app in Y.
    match type of Y with says_act _ ?p ?q _ _ => replace p with (size z + size u) in Y by lia; replace q with (size z + size u + size x) in Y by lia end. exact Y.
Qed.
