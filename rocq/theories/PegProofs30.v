(* Lists of references of an act. *)
From Coq Require Import Lia.
From Verif Require Import PyBase PyBaseFacts UnicodeAlnum NumModel IdModel LineModel DateModel RefModel TreeModel StructModel SemModel GramModel GramSpec PegModel PegSpec PegSpec2 PegProofs PegProofs2 PegProofs7 PegProofs10 PegProofs14 PegProofs22 PegProofs23 PegProofs24 PegProofs25 PegProofs26 PegProofs27 PegProofs28 PegProofs29.
Local Open Scope Z_scope.

(** * Separators *)

Definition conjunctions : list pystr := [u8 "és"; u8 "valamint"; u8 "illetve"; u8 "vagy"].
Lemma tok_none w s : (forall r, ws s <> w ++ r) -> p_tok w s = None.
Proof. intros H. destruct (p_tok w s) as [[x r]|] eqn:E; [|reflexivity]. apply tok_inv in E as (_ & E & _). now apply H in E. Qed.
Lemma toks_none l s : (forall w r, In w l -> ws s <> w ++ r) -> p_toks l s = None.
Proof.
  intros H. induction l as [|w l IH]; [reflexivity|]. change (p_toks (w :: l)) with (p_tok w <|> p_toks l). rewrite or_no; [apply IH; intros v r V; apply H; now right|].
  apply tok_none. intros r. apply H. now left.
Qed.
Lemma begins_conjunction t : begins t -> p_toks conjunctions t = None /\ g_az t = None.
Proof.
  intros B. destruct (begins_opens t B) as [_ E].
  assert (D : forall n z, digits n -> p_toks conjunctions (n ++ z) = None /\ g_az (n ++ z) = None).
  { intros n z N. destruct (digits_head n N) as (c & m & -> & C). cbn [app]. assert (S : isspace_chr c = false) by now apply digit_space. split.
    - apply toks_no. rewrite lc_solid by exact S. repeat constructor; intros ->; discriminate C.
    - unfold g_az, p_rule, p_re. rewrite ws_solid_head by exact S. cbn -[N.eqb]. destruct (N.eqb_spec 97 c) as [<-|Q]; [discriminate C|reflexivity]. }
  destruct B as [n z N _|n a z N _ _|c z C|c z C Z|c d z C F Z]; [now apply D|now apply D| | |].
  - split; [reflexivity|]. reflexivity.
  - destruct z as [|x z]; [now repeat (destruct Z as [Z|Z]; [discriminate Z|])|]. cbn [hd] in Z. split.
    + apply toks_none. intros w r W. rewrite E. intros H. unfold conjunctions in W. repeat (destruct W as [<-|W]; [injection H as -> -> H; repeat (destruct Z as [Z|Z]; [discriminate Z|]); destruct Z|]). destruct W.
    + unfold g_az, p_rule, p_re. rewrite E. cbn -[N.eqb]. destruct (N.eqb 97 c); [|reflexivity]. repeat (destruct Z as [<-|Z]; [reflexivity|]). destruct Z.
  - destruct z as [|x z]; [now repeat (destruct Z as [Z|Z]; [discriminate Z|])|]. cbn [hd] in Z. split.
    + apply toks_none. intros w r W. rewrite E. intros H. unfold conjunctions in W.
      destruct W as [<-|W]; [injection H as -> _ _; unfold is_small in C; lia|].
      repeat (destruct W as [<-|W]; [injection H as _ _ -> _; repeat (destruct Z as [Z|Z]; [discriminate Z|]); destruct Z|]). destruct W.
    + unfold g_az, p_rule, p_re. rewrite E. cbn -[N.eqb]. destruct (N.eqb 97 c); [|reflexivity]. destruct (N.eqb_spec 122 d) as [<-|Q].
      * apply N.eqb_neq in Q || idtac. repeat (destruct Z as [<-|Z]; [reflexivity|]). destruct Z.
      * destruct (N.eqb_spec 32 d) as [<-|Q2]; [unfold is_small in F; lia|reflexivity].
Qed.
Lemma ws_space s : ws (32%N :: s) = ws s. Proof. reflexivity. Qed.
Lemma tok_conjunction w z : In w conjunctions -> p_toks conjunctions (w ++ 32%N :: z) = Some (w, 32%N :: z).
Proof. unfold conjunctions. intros W. repeat (destruct W as [<-|W]; [reflexivity|]). destruct W. Qed.
Lemma toks_space l z : p_toks l (32%N :: z) = p_toks l z.
Proof. induction l as [|w l IH]; [reflexivity|]. change (p_toks (w :: l)) with (p_tok w <|> p_toks l). unfold p_or. rewrite tok_space by reflexivity. now rewrite IH. Qed.
(* a comma, a conjunction, or both, then a space *)
Lemma list_separator_yes x z : In x [u8 ","; u8 ";"; u8 " és"; u8 " valamint"; u8 " illetve"; u8 " vagy"; u8 ", és"; u8 ", valamint"; u8 ", illetve"; u8 ", vagy"] ->
  p_toks conjunctions z = None -> exists y, g_list_separator (x ++ 32%N :: z) = Some (y, 32%N :: z).
Proof.
  intros X Z.
  assert (A : forall w, In w conjunctions -> g_list_separator (32%N :: w ++ 32%N :: z) = Some (w, 32%N :: z)).
  { intros w W. unfold g_list_separator. rewrite rule_space by reflexivity. unfold p_rule.
    assert (E : ws (w ++ 32%N :: z) = w ++ 32%N :: z) by (unfold conjunctions in W; repeat (destruct W as [<-|W]; [reflexivity|]); destruct W). rewrite E. apply or_yes, or_yes.
    rewrite (bind_yes _ _ _ None (w ++ 32%N :: z)); [now apply tok_conjunction|]. apply opt_no, toks_none. intros v r V. rewrite E. unfold conjunctions in W.
    repeat (destruct W as [<-|W]; [repeat (destruct V as [<-|V]; [discriminate|]); destruct V|]). destruct W. }
  assert (B : forall w, In w conjunctions -> g_list_separator (44%N :: 32%N :: w ++ 32%N :: z) = Some (w, 32%N :: z)).
  { intros w W. unfold g_list_separator, p_rule. rewrite ws_solid_head by reflexivity. apply or_yes, or_yes.
    rewrite (bind_yes _ _ _ (Some (u8 ",")) (32%N :: w ++ 32%N :: z)); [rewrite toks_space; now apply tok_conjunction|]. reflexivity. }
  assert (C : forall c, In c (u8 ",;") -> exists y, g_list_separator (c :: 32%N :: z) = Some (y, 32%N :: z)).
  { intros c C. unfold g_list_separator, p_rule. assert (S : isspace_chr c = false) by (repeat (destruct C as [<-|C]; [reflexivity|]); destruct C). rewrite ws_solid_head by exact S.
    assert (N : (p_opt (p_toks [u8 ","; u8 ";"]) ;~ p_toks conjunctions) (c :: 32%N :: z) = None).
    { rewrite (bind_yes _ _ _ (Some [c]) (32%N :: z)); [now rewrite toks_space|]. repeat (destruct C as [<-|C]; [reflexivity|]). destruct C. }
    exists [c]. unfold p_or. change [u8 "és"; u8 "valamint"; u8 "illetve"; u8 "vagy"] with conjunctions. rewrite N. repeat (destruct C as [<-|C]; [reflexivity|]). destruct C. }
  repeat (destruct X as [<-|X]; [cbn [app]; first [apply C; cbn; tauto|eexists; first [apply (A (u8 "és"))|apply (A (u8 "valamint"))|apply (A (u8 "illetve"))|apply (A (u8 "vagy"))|apply (B (u8 "és"))|apply (B (u8 "valamint"))|apply (B (u8 "illetve"))|apply (B (u8 "vagy"))]; unfold conjunctions; cbn; tauto]|]).
  destruct X.
Qed.
Lemma separator_reads p t : separator p -> begins t -> exists r, g_separator (p ++ t) = Some (tt, r) /\ ws r = t.
Proof.
  intros (x & a & X & A & ->) B. destruct (begins_conjunction t B) as [N Z]. destruct (begins_opens t B) as [_ E].
  assert (K : p_toks conjunctions (a ++ t) = None) by (repeat (destruct A as [<-|A]; [first [exact N|reflexivity]|]); destruct A).
  destruct (list_separator_yes x (a ++ t) X K) as (y & Y).
  assert (AZ : exists o r, p_opt g_az (32%N :: a ++ t) = Some (o, r) /\ ws r = t).
  { unfold g_az in *. repeat (destruct A as [<-|A]; [|]); [| | |destruct A].
    - exists None, (32%N :: t). split; [|exact E]. apply opt_no. now rewrite rule_space.
    - eexists. exists t. split; [|exact E]. reflexivity.
    - eexists. exists t. split; [|exact E]. reflexivity. }
  destruct AZ as (o & r & O & R). exists r. split; [|exact R]. unfold g_separator. replace ((x ++ u8 " " ++ a) ++ t) with (x ++ 32%N :: a ++ t) by (now rewrite <- !app_assoc).
  erewrite bind_yes; [reflexivity|]. apply opt_yes. rewrite (bind_yes _ _ _ _ _ Y). exact O.
Qed.
Lemma has_dot x u : abbreviation_shape x -> has u x -> In 46%N u.
Proof.
  intros (c & w & e & -> & _ & _ & _ & I) (a & b & ->). apply in_or_app. right. apply in_or_app. left. right. apply in_or_app. right. repeat (destruct I as [<-|I]; [cbn; tauto|]). destruct I.
Qed.
Lemma separator_words p : separator p -> words p /\ spaced p /\ breaks p /\ exists c q, (p = c :: q \/ p = 32%N :: c :: q) /\ isspace_chr c = false.
Proof.
  intros (x & a & X & A & ->).
  assert (W : forall u, forallb (fun c => negb (c_09 c) && negb (in_str (u8 "():„−–-") c) && negb (c =? 46)%N) u = true -> words u).
  { intros u U. rewrite forallb_forall in U. split.
    - apply Forall_forall. intros c C. apply U in C. split; [unfold c_09 in C; lia|]. intros I. apply in_str_in in I. rewrite I in C. lia.
    - intros y Y H. apply (has_dot y u Y) in H. apply U in H. discriminate H. }
  assert (S : exists y, x ++ u8 " " ++ a = y ++ [32%N]).
  { repeat (destruct A as [<-|A]; [|]); [| | |destruct A]; [exists x|exists (x ++ u8 " a")|exists (x ++ u8 " az")]; now rewrite <- ?app_assoc. }
  split; [|split; [right; destruct S as (y & ->); exists y, 32%N; auto|split]].
  - apply W. repeat (destruct X as [<-|X]; [repeat (destruct A as [<-|A]; [reflexivity|]); destruct A|]). destruct X.
  - repeat (destruct X as [<-|X]; [cbn; tauto|]). destruct X.
  - repeat (destruct X as [<-|X]; [cbn [app]; first [eexists; eexists; (split; [left; reflexivity|reflexivity])|eexists; eexists; (split; [right; reflexivity|reflexivity])]|]). destruct X.
Qed.
Section Total.
Variable total : Z.
Lemma separator_silent p t : separator p -> opens t -> silent total (p ++ t).
Proof.
  intros P T. destruct (separator_words p P) as (W & S & B & c & q & Q & C). split; [|split; [apply words_lc; [apply W|exact T]|destruct Q as [->| ->]; exact B]]. destruct Q as [->| ->].
  - apply words_partless; auto. now right.
  - intros k. change ((32%N :: c :: q) ++ t) with (u8 " " ++ (c :: q) ++ t). rewrite part_space. apply words_partless; auto; [now apply (words_suffix [32%N])|]. apply (closed_suffix [32%N] (c :: q) t); [discriminate|now right].
Qed.

(** * References of an act *)

Lemma listed_begins act k t refs s : listed_written act k t refs -> begins (t ++ s).
Proof. intros L. destruct L as [k r w _ R|k r w p t l _ R _ _]; [|rewrite <- app_assoc]; eapply reference_begins; exact R. Qed.
Lemma reference_rule_ws s : g_reference_rule total (ws s) = g_reference_rule total s.
Proof. unfold g_reference_rule, reference_of, p_map, p_bind, p_span. now rewrite ws_idem. Qed.
Lemma ws_length s : (length (ws s) <= length s)%nat.
Proof. destruct (ws_suf s) as (w & E). rewrite E at 2. rewrite app_length. lia. Qed.
Lemma reference_nonempty r w : reference_written r w -> (0 < length w)%nat.
Proof.
  intros R. pose proof (reference_begins r w [] R) as B. rewrite app_nil_r in B. destruct w; [|cbn; lia]. exfalso.
  inversion B as [n z N _ E|n a z N _ _ E| | |]; destruct (digits_head n N) as (c & m & -> & _); discriminate E.
Qed.
Lemma put_same act r : r_act r = act -> put_act act r = r.
Proof. intros <-. now destruct r. Qed.
Lemma listed_reads act s s' k t refs : silent total s -> g_separator s = Some (tt, s') -> partless total s' -> listed_written act k t refs ->
  pos_of total (t ++ s) = k -> forall n t0, ws t0 = t ++ s -> (length t0 <= n)%nat ->
  exists gs, p_rounds n (g_listed_reference total) t0 = (gs, s') /\ flat_mapM (convert_single_in_text_reference (Some act)) gs = Ok refs.
Proof.
  intros S G P L. induction L as [k r w A R|k r w p t l A R Sp L IH]; intros K n t0 E N.
  - destruct (reference_reads total r w s R S) as (g & Q & C). apply reference_nonempty in R as R'. assert (N' : (0 < length t0)%nat) by (pose proof (ws_length t0) as H; rewrite E, app_length in H; lia).
    destruct n as [|n]; [lia|]. exists [g]. cbn [p_rounds flat_mapM]. unfold g_listed_reference at 1. rewrite <- E, reference_rule_ws in Q. rewrite (bind_yes _ _ _ _ _ Q), (bind_yes _ _ _ _ _ G). cbn [p_ret].
    assert (Z : p_rounds n (g_listed_reference total) s' = ([], s')) by (destruct n; [reflexivity|]; cbn [p_rounds]; unfold g_listed_reference; now rewrite bind_no by now apply reference_no).
    rewrite Z. split; [reflexivity|]. rewrite C. cbn. rewrite put_same by exact A. rewrite K. do 3 f_equal. unfold pos_of in *. rewrite app_length in K. unfold size. lia.
  - pose proof (listed_begins _ _ _ _ s L) as B. destruct (begins_opens _ B) as [O _]. rewrite <- !app_assoc in *.
    destruct (reference_reads total r w (p ++ t ++ s) R (separator_silent _ _ Sp O)) as (g & Q & C). destruct (separator_reads p (t ++ s) Sp B) as (q & Y & W).
    apply reference_nonempty in R as R'. pose proof (ws_length t0) as H. rewrite E, app_length in H.
    destruct n as [|n]; [lia|]. destruct (takes_separator _ _ _ Y) as (v & V). apply (f_equal (@length BinNums.N)) in V. rewrite (app_length v) in V.
    destruct (IH ltac:(unfold pos_of, size in *; rewrite !app_length in *; lia) n q W ltac:(lia)) as (gs & D & F).
    exists (g :: gs). cbn [p_rounds flat_mapM]. unfold g_listed_reference at 1. rewrite <- E, reference_rule_ws in Q. rewrite (bind_yes _ _ _ _ _ Q), (bind_yes _ _ _ _ _ Y). cbn [p_ret]. rewrite D. split; [reflexivity|].
    rewrite C, F. cbn. rewrite put_same by exact A. rewrite K. do 3 f_equal. unfold pos_of in *. rewrite !app_length in K. rewrite !app_length. unfold size. lia.
Qed.
End Total.
