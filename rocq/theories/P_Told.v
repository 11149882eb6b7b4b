(* Property C67: the grammar finds the references and the acts that are written in a sentence. *)
From Coq Require Import Lia.
From Coq Require Import ZifyBool ZifyNat ZifyN.
From Verif Require Import PyBase PyBaseFacts NumModel IdModel DateModel RefModel RefSpec TreeModel SemModel GramModel GramSpec PegModel PegSpec PegSpec2 PegProofs2 PegProofs22 PegProofs30 PegProofs31.
Local Open Scope Z_scope.

(** * Checks, for the examples *)

Lemma words_check u : forallb (fun c => negb (c_09 c) && negb (in_str (u8 "():„−–-") c)) u = true ->
  forallb (fun c => negb (c =? 46)%N) u = true \/ forallb (fun c => negb (c_capital c)) u = true -> words u.
Proof.
  intros W D. rewrite forallb_forall in W. split.
  - apply Forall_forall. intros c C. apply W in C. split; [unfold c_09 in C; lia|]. intros I. apply in_str_in in I. rewrite I in C. lia.
  - intros x X H. destruct D as [D|D]; rewrite forallb_forall in D.
    + apply (has_dot x u X) in H. apply D in H. discriminate H.
    + destruct X as (c & w & e & -> & C & _). destruct H as (a & b & ->). specialize (D c). rewrite in_app_iff in D. cbn [app In] in D. specialize (D ltac:(tauto)).
      assert (K : c_capital c = true) by (destruct C as [C|C]; unfold c_capital; apply orb_true_iff; [left; unfold c_AZ; unfold is_capital in C; lia|right; now apply in_str_in]).
      rewrite K in D. discriminate D.
Qed.
Lemma starts_check u x : match x with c :: _ => isspace_chr c = false | [] => False end -> starts_with u x -> exists v, ws u = x ++ v.
Proof.
  intros X (z & v & -> & Z). exists v. induction Z as [|c z C _ IH]; [destruct x as [|c x]; [destruct X|]; unfold ws; cbn [app drop_while]; now rewrite X|]. unfold ws in *. cbn [app drop_while]. now rewrite C.
Qed.
Ltac not_there := let a := fresh in let b := fresh in let E := fresh in
  intros (a & b & E); refine (Bool.diff_false_true _); rewrite <- (proj2 (contains_sub_spec _ _) (ex_intro _ a (ex_intro _ b E))); vm_compute; reflexivity.
Ltac checks :=
  lazymatch goal with
  | |- words _ => apply words_check; [reflexivity|first [left; reflexivity|right; reflexivity]]
  | |- spaced _ => right; eexists; eexists; split; [match goal with |- ?u = ?a ++ [?b] => let u' := eval cbv in u in let b' := constr:(last u' 0%N) in let a' := constr:(removelast u') in let c := eval cbv in b' in let d := eval cbv in a' in unify b c; unify a d end; reflexivity|reflexivity]
  | |- breaks _ => cbn; tauto
  | |- visible _ => first [eexists; split; [left; reflexivity|reflexivity]|eexists; split; [right; left; reflexivity|reflexivity]]
  | |- ~ starts_with _ _ => let H := fresh in let v := fresh in intros H; apply starts_check in H; [destruct H as [v H]; vm_compute in H; discriminate H|reflexivity]
  | |- Forall (fun c => ~ starts_with _ _) _ => repeat (apply Forall_cons; [checks|]); apply Forall_nil
  | |- Forall _ _ => repeat constructor; first [unfold is_small; lia|cbn; tauto]
  end.

(** C67 *)
Theorem C67_found : forall text refs abbrs, told Nothing 0 text refs abbrs -> ordinary text -> visible text ->
  grammar_analyzer text = Some (mk_analysis refs [] abbrs).
Proof. exact told_found. Qed.
Print Assumptions C67_found.
(* A sentence can be read in one way only. *)
Theorem C67_unique : forall text refs abbrs refs' abbrs', told Nothing 0 text refs abbrs -> told Nothing 0 text refs' abbrs' -> ordinary text -> visible text ->
  refs = refs' /\ abbrs = abbrs'.
Proof. intros text l m l' m' T T' O V. pose proof (told_found _ _ _ T O V) as H. rewrite (told_found _ _ _ T' O V) in H. injection H as -> ->. auto. Qed.
Print Assumptions C67_unique.
(* Words alone say nothing. *)
Corollary C67_nothing : forall text, words text -> ordinary text -> visible text -> grammar_analyzer text = Some (mk_analysis [] [] []).
Proof. intros text W O V. apply C67_found; auto. apply told_words; [exact W|exact I]. Qed.
Print Assumptions C67_nothing.

Definition c67_text : pystr :=
  u8 "Ha a Ptk. 3. § (1) bekezdése, valamint a 4/A. § a)–c) pontja alkalmazandó, akkor az 5. §-ban és a 2013. évi V. törvényben (a továbbiakban: Tv.) foglaltak irányadóak.".
Definition c67_refs : list outgoing_reference :=
  [mk_outgoing 5 9 (mk_ref (Some (u8 "Ptk.")) RNone RNone RNone RNone);
   mk_outgoing 10 28 (mk_ref (Some (u8 "Ptk.")) (RId (u8 "3")) (RId (u8 "1")) RNone RNone);
   mk_outgoing 41 60 (mk_ref (Some (u8 "Ptk.")) (RId (u8 "4/A")) RNone (RRange (u8 "a") (u8 "c")) RNone)].
Lemma c67_article i e : article_shape i -> sign_ending e -> level_written 1 (RId i) (u8 " " ++ (i ++ u8 ".") ++ u8 " §" ++ e).
Proof. intros I E. right. exists PArticle, ((i ++ u8 ".") ++ u8 " §" ++ e). split; [reflexivity|]. split; [|reflexivity]. exists (i ++ u8 "."), e. split; [exact (iw_one PArticle i I)|]. split; [exact E|reflexivity]. Qed.
Lemma c67_none k : level_written k RNone []. Proof. now left. Qed.
Ltac small := repeat (apply Forall_cons; [left; unfold is_small; lia|]); apply Forall_nil.
Ltac digit := split; [discriminate|repeat constructor; cbn; lia].
Example C67_found_ex : told Nothing 0 c67_text
  (c67_refs ++ [mk_outgoing 84 92 (mk_ref None (RId (u8 "5")) RNone RNone RNone); mk_outgoing 98 121 (mk_ref (Some (u8 "2013. évi V. törvény")) RNone RNone RNone RNone)])
  [mk_abbreviation (u8 "Tv.") (u8 "2013. évi V. törvény")] /\ ordinary c67_text /\ visible c67_text.
Proof.
  split.
  - refine (told_act Nothing 0 (u8 "Ha a ") (u8 "Ptk. 3. § (1) bekezdése, valamint a 4/A. § a)–c) pontja") _ c67_refs _ [] _ _ _ _ _ _); [checks|checks|exact I| |].
    { refine (ar_listed 5 (u8 "Ptk.") (u8 "Ptk.") [] [] (u8 "3. § (1) bekezdése, valamint a 4/A. § a)–c) pontja") (tl c67_refs) _ _).
      - constructor. exists 80%N, (u8 "tk"). split; [reflexivity|]. split; [left; unfold is_capital; lia|]. split; [discriminate|]. small.
      - refine (lw_more (u8 "Ptk.") 10 (mk_ref (Some (u8 "Ptk.")) (RId (u8 "3")) (RId (u8 "1")) RNone RNone) (u8 "3. § (1) bekezdése") (u8 ", valamint a ") (u8 "4/A. § a)–c) pontja") _ eq_refl _ _ _).
        + exists (u8 " 3. §"), (u8 " (1) bekezdése"), [], []. split; [apply (c67_article (u8 "3") []); [constructor; digit|now left]|].
          split; [|split; [apply c67_none|split; [apply c67_none|split; [reflexivity|now left]]]]. right. exists PParagraph, (u8 "(1) bekezdése"). split; [reflexivity|]. split; [|reflexivity].
          exists (u8 "(1)"), (u8 "e"). split; [apply (iw_one PParagraph (u8 "1")); exists (u8 "1"), []; split; [reflexivity|]; split; [digit|constructor]|]. split; [|reflexivity]. small.
        + exists (u8 ", valamint"), (u8 "a "). split; [cbn; tauto|]. split; [cbn; tauto|reflexivity].
        + refine (lw_last (u8 "Ptk.") 41 (mk_ref (Some (u8 "Ptk.")) (RId (u8 "4/A")) RNone (RRange (u8 "a") (u8 "c")) RNone) (u8 "4/A. § a)–c) pontja") eq_refl _).
          exists (u8 " 4/A. §"), [], (u8 " a)–c) pontja"), []. split; [apply (c67_article (u8 "4/A") []); [apply (as_letter (u8 "4") 65%N); [digit|unfold is_capital; lia]|now left]|].
          split; [apply c67_none|]. split; [|split; [apply c67_none|split; [reflexivity|now left]]]. right. exists PAlphabeticPoint, (u8 "a)–c) pontja"). split; [reflexivity|]. split; [|reflexivity].
          exists (u8 "a)–c)"), (u8 "ja"). split; [apply (iw_range PAlphabeticPoint (u8 "a") 8211%N (u8 "c")); [left; eexists; split; [reflexivity|unfold is_small; lia]|left; eexists; split; [reflexivity|unfold is_small; lia]|cbn; tauto]|]. split; [|reflexivity]. small. }
    refine (told_reference Act 60 (u8 " alkalmazandó, akkor az ") (mk_ref None (RId (u8 "5")) RNone RNone RNone) (u8 "5. §-ban") _ _ _ _ _ _ eq_refl _ _); [checks|checks|split; [checks|split; checks]| |].
    { exists (u8 " 5. §-ban"), [], [], []. split; [apply (c67_article (u8 "5") (u8 "-ban")); [constructor; digit|right; exists (u8 "ban"); split; [reflexivity|]; split; [discriminate|small]]|].
      split; [apply c67_none|split; [apply c67_none|split; [apply c67_none|split; [reflexivity|now left]]]]. }
    refine (told_act Reference 92 (u8 " és a ") (u8 "2013. évi V. törvényben (a továbbiakban: Tv.)") (u8 " foglaltak irányadóak.") [_] [] [_] [] _ _ _ _ _); [checks|checks|split; checks| |].
    { refine (ar_alone 98 (u8 "2013. évi V. törvény") (u8 "2013. évi V. törvényben") (u8 " (a továbbiakban: Tv.)") _ _).
      refine (aw_from_now_on (u8 "2013") (u8 "V") (u8 "ben") (u8 "Tv.") _ _ _ _); [digit|split; [discriminate|repeat constructor; cbn; tauto]|small|].
      exists 84%N, (u8 "v"). split; [reflexivity|]. split; [left; unfold is_capital; lia|]. split; [discriminate|]. small. }
    apply told_words; [checks|split; checks].
  - split; [|eexists; split; [left; reflexivity|reflexivity]].
    split; [|split; [|split]].
    + intros (u & v & E & F). assert (G : forall a b, a ++ u8 ":" ++ b = c67_text -> exists c, In c b /\ isspace_chr c = false); [|destruct (G u v (eq_sym E)) as (c & C & D); rewrite Forall_forall in F; apply F in C; congruence].
      clear. intros a b H. exists 46%N. split; [|reflexivity]. apply (f_equal (fun l => last l 0%N)) in H. change (last c67_text 0%N) with 46%N in H. rewrite app_assoc in H. destruct b as [|x b]; [rewrite app_nil_r, last_last in H; discriminate H|].
      destruct (exists_last (l := x :: b)) as (b' & y & Q); [discriminate|]. rewrite Q in *. rewrite app_assoc, last_last in H. subst y. apply in_or_app. right. now left.
    + intros I. assert (K : forallb (fun c => negb (c =? 8222)%N) c67_text = true) by reflexivity. rewrite forallb_forall in K. apply K in I. discriminate I.
    + not_there.
    + not_there.
Qed.
Example C67_unique_ex : forall refs abbrs, told Nothing 0 c67_text refs abbrs -> length refs = 5%nat /\ map ab_abbreviation abbrs = [u8 "Tv."].
Proof. intros l m T. destruct C67_found_ex as (T' & O & V). destruct (C67_unique _ _ _ _ _ T T' O V) as [-> ->]. split; reflexivity. Qed.
Definition c67_words : pystr := u8 "az ügyben a kormány jár el.".
Example C67_nothing_ex : words c67_words /\ ordinary c67_words /\ visible c67_words.
Proof.
  split; [checks|]. split; [|checks]. split; [|split; [|split; not_there]].
  - intros (u & v & E & _). assert (I : In 58%N c67_words) by (rewrite E; apply in_or_app; right; now left). repeat (destruct I as [I|I]; [discriminate I|]). destruct I.
  - intros I. repeat (destruct I as [I|I]; [discriminate I|]). destruct I.
Qed.
