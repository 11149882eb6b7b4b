(* Sentences that say when an act enters into force are recognised. *)
From Coq Require Import Lia.
From Verif Require Import PyBase PyBaseFacts UnicodeAlnum NumModel IdModel LineModel DateModel DateSpec DateProofs RefModel RefSpec TreeModel StructModel StructSpec SemModel GramModel GramSpec GramProofs4 PegModel PegSpec PegSpec2 PegSpec3 PegSpec4 PegProofs PegProofs2 PegProofs7 PegProofs10 PegProofs13 PegProofs14 PegProofs22 PegProofs23 PegProofs24 PegProofs25 PegProofs26 PegProofs27 PegProofs28 PegProofs29 PegProofs30 PegProofs31 PegProofs32 PegProofs33 PegProofs34 PegProofs35 PegProofs36 PegProofs37 PegProofs38 PegProofs39.
Local Open Scope Z_scope.

Definition until_possible (d : option date) : Prop := match d with Some d => supported d | None => True end.
Definition until_converts (d : option g_date) : res (option date) := match d with Some d => x <- convert_exact_date d ;; Ok (Some x) | None => Ok None end.
Lemma supported_dec d : supported d \/ ~ supported d.
Proof. destruct d as [y m d]. destruct (Date_ y m d) as [x|e] eqn:E. - left. apply Date_ok. rewrite E. f_equal. unfold Date_ in E. destruct (datetime_date y m d) as [[[? ?] ?]|]; [|discriminate E]. cbn in E. congruence. - right. rewrite Date_ok, E. discriminate. Qed.
Lemma enforcement_reads h x xs s refs date w until v (T := h ++ x ++ s ++ u8 " " ++ w ++ u8 " lép hatályba" ++ v ++ u8 ".") :
  In h [u8 "E törvény"; u8 "Ez a törvény"; u8 "A"; u8 "Az"] -> exception_written (size h) x xs -> subjects_written (size h + size x) s refs ->
  moment_written date w -> ends_written until v ->
  exists gs es m g, g_start (Z.of_nat (length T)) T = Some (GTree (GEnforcementDate gs es (fst (fst m)) (snd (fst m)) (snd m) g) [], []) /\
    convert_multiple_in_text_references None gs = Ok refs /\ convert_multiple_in_text_references None es = Ok xs /\ (gs = [] <-> refs = []) /\
    (moment_possible date -> moment_converts m = Ok date) /\ (~ moment_possible date -> exists e, moment_converts m = Err e) /\
    (until_possible until -> until_converts g = Ok until) /\ (~ until_possible until -> exists e, until_converts g = Err e).
Proof.
  intros Hh X S M E. set (n := Z.of_nat (length T)). set (r := u8 " " ++ w ++ u8 " lép hatályba" ++ v ++ u8 ".") in *.
  destruct (moment_silent n date w (u8 " lép hatályba" ++ v ++ u8 ".") M) as (Si & Se & _). fold r in Si, Se.
  destruct (subjects_reads n _ s refs r S) as (gs & G & Gc & Gn & Gd); [unfold n, T, pos_of, size; rewrite !app_length; lia|exact Si|exact Se|].
  destruct (exception_reads n _ x xs (s ++ r) X) as (o & O & Oc); [unfold n, T, pos_of, size; rewrite !app_length; lia|exact Gd|].
  destruct (moment_reads date w (v ++ u8 ".") M) as (m & Mr & M1 & M2). destruct (ends_reads until v E) as (g & Er & Ec).
  exists gs, (match o with Some e => [e] | None => [] end), m, g. split; [|split; [exact Gc|split; [exact Oc|split; [exact Gn|split; [exact M1|split; [exact M2|]]]]]].
  2:{ destruct until as [d|], g as [gd|]; try contradiction; [|now split]. destruct Ec as [E1 E2]. cbn [until_possible until_converts]. split; intros Q; [now rewrite (E1 Q)|destruct (E2 Q) as (e & ->); now exists e]. }
  assert (W : ws T = T) by (unfold T; destruct Hh as [<-|[<-|[<-|[<-|[]]]]]; reflexivity).
  assert (Nc : ~ ends_in_colon T) by (unfold T, r; rewrite !app_assoc; apply dot_no_colon).
  assert (Nq : ~ In 8222%N T).
  { assert (Q : unquoted T).
    { unfold T, r. apply unquoted_app; [exact (unquoted_in _ _ Hh eq_refl)|]. apply unquoted_app; [exact (unquoted_exception _ _ _ X)|]. apply unquoted_app; [exact (unquoted_subjects _ _ _ S)|]. apply unquoted_app; [now apply unquoted_check|]. apply unquoted_app; [exact (unquoted_moment _ _ M)|]. apply unquoted_app; [now apply unquoted_check|]. apply unquoted_app; [exact (unquoted_ends _ _ E)|now apply unquoted_check]. }
    intros I. unfold unquoted in Q. rewrite Forall_forall in Q. now apply (Q _ I). }
  assert (EN : g_enforcement_date n T = Some (GTree (GEnforcementDate gs (match o with Some e => [e] | None => [] end) (fst (fst m)) (snd (fst m)) (snd m) g) [], [])).
  { unfold g_enforcement_date, p_rule at 1. rewrite W. fold (g_exception n). fold g_moment.
    assert (Hd : exists z, ((p_toks [u8 "E"; u8 "Ez a"] ;~ p_tok (u8 "törvény")) <|> p_re (RSeq (RLit (u8 "A")) (ROpt (N.eqb 122)))) T = Some (z, x ++ s ++ r)).
    { assert (Sp : exists q, x ++ s ++ r = 32%N :: q) by (destruct X; [destruct S|]; eexists; reflexivity). destruct Sp as (q & Sp). unfold T. rewrite Sp. destruct Hh as [<-|[<-|[<-|[<-|[]]]]]; eexists; reflexivity. }
    destruct Hd as (z & Hd). rewrite (bind_yes _ _ _ _ _ Hd), (bind_yes _ _ _ _ _ O), (bind_yes _ _ _ _ _ G). unfold r. rewrite (bind_yes _ _ _ _ _ Mr).
    rewrite (bind_yes _ _ _ (u8 "lép hatályba") (v ++ u8 ".")).
    2:{ change (u8 " lép hatályba" ++ v ++ u8 ".") with (32%N :: u8 "lép hatályba" ++ v ++ u8 "."). unfold p_tok. change (ws (32%N :: u8 "lép hatályba" ++ v ++ u8 ".")) with (u8 "lép hatályba" ++ v ++ u8 "."). reflexivity. }
    rewrite (bind_yes _ _ _ _ _ Er). rewrite (bind_yes _ _ _ (u8 ".") []) by reflexivity. destruct m as [[ex af] dm]. reflexivity. }
  fold n. unfold g_start, p_rule at 1. do 3 apply or_yes. rewrite or_no; [apply to_end; rewrite W; exact EN|].
  assert (Sf : suf T (ws T)) by apply ws_suf.
  rewrite or_no; [apply end_none; intros ? ?; now apply title_none|]. rewrite or_no; [apply end_none; intros ? ?; now apply text_none|].
  rewrite or_no; [apply no_colon_none, block_structural_colon; exact Nc|]. rewrite or_no; [apply no_colon_none, block_subtitle_colon; exact Nc|]. apply no_colon_none, block_colon; exact Nc.
Qed.
Lemma enforcement_sentence text l sds : enforcement_written text l sds ->
  (Forall possible sds -> grammar_analyzer text = Some (mk_analysis l sds [])) /\ (~ Forall possible sds -> grammar_analyzer text = None).
Proof.
  intros W. destruct W as [h x xs s refs date w until v Hh X S M E].
  destruct (enforcement_reads h x xs s refs date w until v Hh X S M E) as (gs & es & m & g & G & Gc & Ec & Gn & M1 & M2 & U1 & U2).
  set (sds := match refs with [] => [EnforcementDate None date until] | _ => map (fun o => EnforcementDate (Some (or_reference o)) date until) refs end).
  assert (P : Forall possible sds <-> moment_possible date /\ until_possible until).
  { unfold sds. destruct refs as [|o refs].
    - split; [intros H; inversion H as [|? ? H1]; exact H1|intros H; constructor; [exact H|constructor]].
    - split; [intros H; inversion H as [|? ? H1]; exact H1|]. intros H. apply Forall_forall. intros y Y. apply in_map_iff in Y as (o' & <- & _). exact H. }
  assert (C : convert_single_node (GEnforcementDate gs es (fst (fst m)) (snd (fst m)) (snd m) g) = both (semantics (d <- moment_converts m ;; u <- until_converts g ;; Ok (match refs with [] => [EnforcementDate None d u] | _ => map (fun o => EnforcementDate (Some (or_reference o)) d u) refs end))) (outgoings (Ok (refs ++ xs)))).
  { cbn [convert_single_node]. unfold enforcement_to_reference. rewrite Gc, Ec. cbn [bind]. f_equal. f_equal. unfold enforcement_to_enforcement. destruct m as [[ex af] dm]. cbn [fst snd].
    fold (until_converts g). destruct gs as [|g0 gs].
    - assert (R : refs = []) by now apply Gn. subst refs. destruct ex, af, dm; reflexivity.
    - destruct refs as [|o refs]; [assert (Hz : g0 :: gs = []) by (now apply Gn); discriminate Hz|]. rewrite Gc. destruct ex, af, dm; reflexivity. }
  unfold grammar_analyzer, analyzer_of, grammar_parse. rewrite G. cbn [convert_depth_first]. rewrite C. split; intros Q.
  - apply P in Q as [Q1 Q2]. rewrite (M1 Q1), (U1 Q2). cbn [bind]. fold sds. cbn. f_equal. apply analysis_of. cbn [map app]. rewrite ?app_nil_r. reflexivity.
  - assert (Z : ~ moment_possible date \/ ~ until_possible until).
    { destruct until as [u|]; cbn in *; [destruct (supported_dec u)|]; destruct date as [d| | |]; cbn in *; try destruct (supported_dec d); tauto. }
    assert (F : exists e, (d <- moment_converts m ;; u <- until_converts g ;; Ok (match refs with [] => [EnforcementDate None d u] | _ => map (fun o => EnforcementDate (Some (or_reference o)) d u) refs end)) = Err e).
    { destruct Z as [Z|Z]; [destruct (M2 Z) as (e & ->); now exists e|]. destruct (U2 Z) as (e & ->). destruct (moment_converts m) as [d|e']; eexists; reflexivity. }
    destruct F as (e & ->). reflexivity.
Qed.
