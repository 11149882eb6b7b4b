From Coq Require Import Lia.
From Coq Require Import ZifyBool ZifyNat ZifyN.
From Verif Require Import PyBase PyBaseFacts IdModel LineModel FixupModel LineSpec FixupSpec LineProofs FixupProofs
  FixupEntries FixupTable FixTableSpec.
Local Open Scope Z_scope.

(** * The texts of the parts of a line decide how it is cut *)
Definition shape (l : line) : list pystr := map p_content (l_parts l).
Definition plain (sh : list pystr) : line := mk_line (map (fun s => mk_part f_zero s false) sh) f_zero.
Lemma shape_plain sh : shape (plain sh) = sh.
Proof. unfold shape, plain. cbn [l_parts]. rewrite map_map. cbn. apply map_id. Qed.
Lemma shape_content l : l_content l = concat (shape l).
Proof. unfold l_content, shape. now rewrite flat_map_concat_map. Qed.

Lemma skip_shape ps : forall ps' start x x' len idx, map p_content ps = map p_content ps' ->
  snd (fst (slice_skip ps start x len idx)) = snd (fst (slice_skip ps' start x' len idx)) /\
  snd (slice_skip ps start x len idx) = snd (slice_skip ps' start x' len idx).
Proof.
  induction ps as [|p ps IH]; intros [|p' ps'] start x x' len idx E; try discriminate; [now split|].
  cbn [map] in E. injection E as E1 E2. cbn [slice_skip]. rewrite E1. destruct (len <? start); [|now split]. now apply IH.
Qed.
Lemma include_shape ps : forall ps' want len idx, map p_content ps = map p_content ps' ->
  slice_include ps want len idx = slice_include ps' want len idx.
Proof.
  induction ps as [|p ps IH]; intros [|p' ps'] want len idx E; try discriminate; [reflexivity|].
  cbn [map] in E. injection E as E1 E2. cbn [slice_include]. rewrite E1. destruct (len <? want); [|reflexivity]. now apply IH.
Qed.
Lemma slice_nat_map {A B} (f : A -> B) a b (l : list A) : map f (slice_nat a b l) = slice_nat a b (map f l).
Proof. unfold slice_nat. now rewrite ?firstn_map, ?skipn_map, ?firstn_map. Qed.

(* the result of an operation as the texts of the parts *)
Definition seen (r : res line) : res (list pystr) := match r with Ok l => Ok (shape l) | Err e => Err e end.
Lemma slice_shape l l' s e : shape l = shape l' -> seen (l_slice l s e) = seen (l_slice l' s e).
Proof.
  intros E. assert (Ec : l_content l = l_content l') by now rewrite !shape_content, E.
  unfold l_slice. cbv zeta. rewrite Ec.
  set (n := Z.of_nat _). set (st := if s <? 0 then _ else _). set (en := if _ <? 0 then _ else _).
  destruct (_ && _); [cbn; congruence|]. destruct (en <=? st); [reflexivity|].
  destruct (skip_shape (l_parts l) (l_parts l') st f_zero f_zero 0 O E) as [S1 S2].
  destruct (slice_skip (l_parts l) st f_zero 0 O) as [[x len] k] eqn:K, (slice_skip (l_parts l') st f_zero 0 O) as [[x' len'] k'] eqn:K'.
  cbn [fst snd] in S1, S2. subst len' k'.
  assert (Es : map p_content (skipn k (l_parts l)) = map p_content (skipn k (l_parts l'))).
  { rewrite <- !skipn_map. unfold shape in E. now rewrite E. }
  rewrite (include_shape _ _ (en - st) 0 k Es).
  destruct (skipn k (l_parts l)) as [|p t], (skipn k (l_parts l')) as [|p' t']; try discriminate; [reflexivity|].
  destruct (negb (len =? st)); [reflexivity|]. destruct (slice_include _ _ _ _) as [il j]. destruct (negb _); [reflexivity|].
  cbn [seen]. f_equal. unfold shape. cbn [l_parts map]. cbn [map] in Es. injection Es as Ep _.
  f_equal; [destruct (f_truthy x), (f_truthy x'); cbn; exact Ep|]. rewrite !slice_nat_map. now rewrite E || (unfold shape in E; now rewrite E).
Qed.
Lemma multiple_shape ls : shape (l_from_multiple ls) = flat_map shape ls.
Proof. exact (from_multiple_contents ls). Qed.

Lemma replaced_shape needle replacement l l' : shape l = shape l' ->
  seen (replaced_line needle replacement l) = seen (replaced_line needle replacement l').
Proof.
  intros E. unfold replaced_line. cbv zeta. set (pre := common_prefix_len _ _). set (post := common_postfix_len _ _).
  pose proof (slice_shape l l' 0 (Some (Z.of_nat pre)) E) as H1. pose proof (slice_shape l l' (Z.of_nat pre) None E) as H2.
  pose proof (slice_shape l l' (- Z.of_nat post) None E) as H3.
  destruct (l_slice l 0 _) as [a|], (l_slice l' 0 _) as [a'|]; cbn [seen bind] in *; try congruence.
  destruct (l_slice l (Z.of_nat pre) _) as [b|], (l_slice l' (Z.of_nat pre) _) as [b'|]; cbn [seen bind] in *; try congruence.
  destruct post as [|post].
  - cbn [bind seen]. rewrite !multiple_shape. cbn [flat_map]. injection H1 as ->. reflexivity.
  - destruct (l_slice l _ None) as [c|], (l_slice l' _ None) as [c'|]; cbn [seen bind] in *; try congruence.
    rewrite !multiple_shape. cbn [flat_map]. injection H1 as ->. injection H3 as ->. reflexivity.
Qed.

(** * Bodies whose lines are of one-character parts, or of known texts *)
Definition known (K : list (list pystr)) (l : line) : Prop := one_char_parts l \/ In (shape l) K.
Definition characters (s : pystr) : list pystr := map (fun c => [c]) s.
Lemma one_char_shape l : one_char_parts l -> shape l = characters (l_content l).
Proof.
  unfold one_char_parts, shape, l_content. induction (l_parts l) as [|p ps IH]; intros H; [reflexivity|].
  inversion H as [|? ? Hp Hps]; subst. cbn [map flat_map]. rewrite IH by assumption. unfold characters. rewrite map_app. 
  destruct (p_content p) as [|c [|? ?]]; try discriminate. reflexivity.
Qed.

(* the known lines of the text *)
Definition candidates (K : list (list pystr)) (needle : pystr) : list (list pystr) :=
  characters needle :: filter (fun k => str_eqb (concat k) needle) K.
Lemma known_candidate K l needle : known K l -> l_content l = needle -> In (shape l) (candidates K needle).
Proof.
  intros [H|H] E; [left; rewrite one_char_shape by assumption; now rewrite E|].
  right. apply filter_In. split; [exact H|]. apply str_eqb_eq. now rewrite <- shape_content.
Qed.

(* the new lines, if each of them has the right text *)
Definition exact_new (replacement : pystr) (r : res line) : option (list pystr) :=
  match seen r with
  | Ok sh => if str_eqb (concat sh) replacement then Some sh else None
  | Err _ => None
  end.
Fixpoint all_some {A} (l : list (option A)) : option (list A) :=
  match l with
  | [] => Some []
  | Some a :: t => match all_some t with Some r => Some (a :: r) | None => None end
  | None :: _ => None
  end.
Definition new_shapes (K : list (list pystr)) (needle replacement : pystr) : option (list (list pystr)) :=
  match replacement with
  | [] => Some []
  | _ => all_some (map (fun sh => exact_new replacement (replaced_line needle replacement (plain sh))) (candidates K needle))
  end.
Fixpoint exact_from (K : list (list pystr)) (es : list fixup_entry) : bool :=
  match es with
  | [] => true
  | FReplace needle replacement _ :: t =>
      match new_shapes K needle replacement with
      | Some new => exact_from (new ++ K) t
      | None => false
      end
  | FEmptyAfter _ :: t | FDelete _ :: t => exact_from K t
  | FTitles :: t => match K, t with [], [] => true | _, _ => false end
  end.

Lemma all_some_in {A} (l : list (option A)) r o : all_some l = Some r -> In o l -> exists a, o = Some a /\ In a r.
Proof.
  revert r. induction l as [|[a|] l IH]; intros r E H; [destruct H| |discriminate].
  cbn [all_some] in E. destruct (all_some l) as [r'|]; [|discriminate]. injection E as <-.
  destruct H as [<-|H]; [exists a; split; [reflexivity|now left]|]. destruct (IH r' eq_refl H) as (a' & -> & Ha).
  exists a'. split; [reflexivity|now right].
Qed.

Lemma new_lines_exact K needle replacement new l : new_shapes K needle replacement = Some new ->
  known K l -> l_content l = needle ->
  exists ls, new_lines needle replacement l = Ok ls /\ map l_content ls = new_text replacement /\
    Forall (known (new ++ K)) ls.
Proof.
  intros Hn Hk Hc. unfold new_shapes, new_lines, new_text in *. destruct replacement as [|c t].
  { exists []. repeat split; constructor. }
  set (rep := c :: t) in *. pose proof (known_candidate K l needle Hk Hc) as Hi.
  assert (Ho : In (exact_new rep (replaced_line needle rep (plain (shape l))))
    (map (fun sh => exact_new rep (replaced_line needle rep (plain sh))) (candidates K needle))).
  { apply in_map_iff. exists (shape l). split; [reflexivity|exact Hi]. }
  destruct (all_some_in _ _ _ Hn Ho) as (sh & E & Hs). unfold exact_new in E.
  rewrite <- (replaced_shape needle rep l (plain (shape l))) in E by (now rewrite shape_plain).
  destruct (replaced_line needle rep l) as [l'|]; cbn [seen] in E; [|discriminate].
  destruct (str_eqb (concat (shape l')) rep) eqn:Er; [|discriminate]. injection E as <-. apply str_eqb_eq in Er.
  exists [l']. cbn [bind map]. repeat split; [now rewrite shape_content, Er|]. constructor; [|constructor]. right. apply in_or_app. now left.
Qed.

Lemma known_more K new l : known K l -> known (new ++ K) l.
Proof. intros [H|H]; [now left|right; apply in_or_app; now right]. Qed.

Lemma none_has_in needle ls : none_has needle ls <-> ~ In needle (map l_content ls).
Proof.
  unfold none_has. rewrite Forall_forall. split.
  - intros H Hi. apply in_map_iff in Hi as (l & E & Hl). now apply (H l Hl).
  - intros H l Hl E. apply H. apply in_map_iff. eauto.
Qed.
Lemma map_split {A B} (f : A -> B) l x y : forall a, map f l = a ++ x :: y ->
  exists b z c, l = b ++ z :: c /\ map f b = a /\ f z = x /\ map f c = y.
Proof.
  induction l as [|h l IH]; intros [|p a] E; try discriminate; cbn [map app] in E; injection E as E1 E2.
  - exists [], h, l. auto.
  - destruct (IH a E2) as (b & z & c & -> & <- & <- & <-). exists (h :: b), z, c. cbn. subst p. auto.
Qed.

(** ** One entry *)
Lemma replace_step K needle replacement prev new body :
  new_shapes K needle replacement = Some new -> Forall (known K) body ->
  (forall out, replace_line_content needle replacement prev body = Ok out ->
     text_step (FReplace needle replacement prev) (map l_content body) (map l_content out) /\ Forall (known (new ++ K)) out) /\
  (forall t, text_step (FReplace needle replacement prev) (map l_content body) t ->
     exists out, replace_line_content needle replacement prev body = Ok out /\ map l_content out = t).
Proof.
  intros Hn Hk. split.
  - intros out H. apply replace_spec in H as (a & l & b & ls & -> & En & Ha & Hl & Hb & ->).
    pose proof (meantb_content _ _ _ _ Hl) as Hc. pose proof Hk as Hk'.
    apply Forall_app in Hk' as [Ka Kb]. inversion Kb as [|? ? Kl Kb']; subst x l0.
    destruct (new_lines_exact K needle replacement new l Hn Kl Hc) as (ls' & E' & T & F). rewrite E' in En. injection En as ->.
    split.
    + exists (map l_content a), (map l_content b). rewrite !map_app, T. cbn [map]. rewrite Hc. split; [reflexivity|]. split; [reflexivity|].
      repeat split.
      * apply meantb_spec in Hl as [_ Hl]. exact Hl.
      * rewrite none_meant_spec in Ha. exact Ha.
      * rewrite none_meant_spec in Hb. intros x y z E. specialize (Hb x y z E). rewrite map_app, <- app_assoc, T in Hb. exact Hb.
    + apply Forall_app. split; [|apply Forall_app; split; [exact F|]]; (eapply Forall_impl; [|eassumption]); intros; now apply known_more.
  - intros t (before & after & E & -> & M). apply map_split in E as (a & l & b & -> & <- & Hc & <-).
    apply Forall_app in Hk as [_ Hk]. inversion Hk as [|? ? Kl _]; subst x l0.
    destruct (new_lines_exact K needle replacement new l Hn Kl Hc) as (ls & E' & T & _). rewrite <- T in M |- *.
    destruct (only_meant_loops needle prev ls a l b M Hc) as (H1 & H2 & H3).
    exists (a ++ ls ++ b). split; [|now rewrite !map_app]. apply replace_spec. exists a, l, b, ls. repeat split; auto.
Qed.
Lemma delete_step K needle body : Forall (known K) body ->
  (forall out, delete_line needle body = Ok out ->
     text_step (FDelete needle) (map l_content body) (map l_content out) /\ Forall (known K) out) /\
  (forall t, text_step (FDelete needle) (map l_content body) t ->
     exists out, delete_line needle body = Ok out /\ map l_content out = t).
Proof.
  intros Hk. split.
  - intros out H. apply delete_spec in H as (a & l & b & -> & Hc & Ha & Hb & ->). split.
    + exists (map l_content a), (map l_content b). rewrite !map_app. cbn [map]. rewrite Hc.
      apply none_has_in in Ha. apply none_has_in in Hb. auto.
    + apply Forall_app in Hk as [Ka Kb]. inversion Kb. apply Forall_app. now split.
  - intros t (before & after & E & -> & Ha & Hb). apply map_split in E as (a & l & b & -> & <- & Hc & <-).
    exists (a ++ b). split; [|now rewrite map_app]. apply delete_spec. exists a, l, b. apply none_has_in in Ha. apply none_has_in in Hb. auto.
Qed.
Lemma empty_step K needle body : Forall (known K) body ->
  (forall out, add_empty_line_after needle body = Ok out ->
     text_step (FEmptyAfter needle) (map l_content body) (map l_content out) /\ Forall (known K) out) /\
  (forall t, text_step (FEmptyAfter needle) (map l_content body) t ->
     exists out, add_empty_line_after needle body = Ok out /\ map l_content out = t).
Proof.
  intros Hk. split.
  - intros out H. apply add_empty_spec in H as (a & l & b & -> & Hc & Ha & Hb & ->). split.
    + exists (map l_content a), (map l_content b). rewrite !map_app. cbn [map]. rewrite Hc.
      apply none_has_in in Ha. apply none_has_in in Hb. auto.
    + apply Forall_app in Hk as [Ka Kb]. inversion Kb. apply Forall_app. split; [assumption|]. constructor; [assumption|]. constructor; [|assumption].
      left. constructor.
  - intros t (before & after & E & -> & Ha & Hb). apply map_split in E as (a & l & b & -> & <- & Hc & <-).
    exists (a ++ l :: EMPTY_LINE :: b). split; [|rewrite map_app; cbn [map]; now rewrite Hc].
    apply add_empty_spec. exists a, l, b. apply none_has_in in Ha. apply none_has_in in Hb. auto.
Qed.
Lemma moved_swapped a b : titles_moved a b -> titles_swapped (map l_content a) (map l_content b).
Proof.
  induction 1 as [| |p l title header rest p' l' t t' Hb Ha E1 E2 _ _ IH|p l t t' Hn _ IH]; cbn [map] in *.
  - constructor.
  - constructor.
  - rewrite E1, E2. now apply swapped_pair.
  - now apply swapped_not.
Qed.
Lemma swapped_unique a b : titles_swapped a b -> forall c, titles_swapped a c -> b = c.
Proof.
  induction 1 as [| |p x title header rest t t' Hb Ha _ IH|p x t t' Hn _ IH]; intros c H; inversion H; subst; try reflexivity.
  - assert (title = title0) by (apply title_match_spec in Hb; match goal with B : bracketed _ title0 |- _ => apply title_match_spec in B end; congruence).
    match goal with B : article_start x header0 rest0 |- _ => pose proof B as A2 end.
    assert (L : List.length header = List.length header0).
    { assert (E1 : article_match x = Some (List.length header)) by (apply article_match_spec; eauto).
      assert (E2 : article_match x = Some (List.length header0)) by (apply article_match_spec; eauto). congruence. }
    apply article_start_len in Ha as (F1 & S1 & _). apply article_start_len in A2 as (F2 & S2 & _). rewrite L in F1, S1.
    subst. repeat f_equal; try congruence. apply IH. assumption.
  - exfalso. match goal with N : forall _ _ _, bracketed p _ -> _ |- _ => eapply N; eauto end.
  - exfalso. eapply Hn; eauto.
  - f_equal. now apply IH.
Qed.
Lemma titles_step body : Forall (known []) body ->
  (forall out, ptke_article_header_fixer body = Ok out -> text_step FTitles (map l_content body) (map l_content out)) /\
  (forall t, text_step FTitles (map l_content body) t ->
     exists out, ptke_article_header_fixer body = Ok out /\ map l_content out = t).
Proof.
  intros Hk. assert (H : Forall one_char_parts body). { eapply Forall_impl; [|exact Hk]. intros l [H|[]]. exact H. }
  destruct (proj1 (ptke_loop_spec body H)) as (r & E & M). apply moved_swapped in M. split.
  - intros out Eo. unfold ptke_article_header_fixer in Eo. rewrite E in Eo. injection Eo as <-. exact M.
  - intros t Ht. exists r. split; [exact E|]. exact (swapped_unique _ _ M _ Ht).
Qed.

(** ** All of them *)
Lemma entries_exact es : forall K body, exact_from K es = true -> Forall (known K) body ->
  (forall out, run_fixups (map fixup_of es) body = Ok out -> text_steps es (map l_content body) (map l_content out)) /\
  (forall t, text_steps es (map l_content body) t ->
     exists out, run_fixups (map fixup_of es) body = Ok out /\ map l_content out = t).
Proof.
  induction es as [|e es IH]; intros K body He Hk; cbn [map run_fixups].
  { split; [intros out [= <-]; constructor|]. intros t H. inversion H; subst. eauto. }
  assert (G : forall K', exact_from K' es = true ->
    ((forall out, fixup_of e body = Ok out -> text_step e (map l_content body) (map l_content out) /\ Forall (known K') out) /\
     (forall t, text_step e (map l_content body) t -> exists out, fixup_of e body = Ok out /\ map l_content out = t)) ->
    (forall out, (match fixup_of e body with Ok body' => run_fixups (map fixup_of es) body' | Err _ => Err ValueError end) = Ok out ->
        text_steps (e :: es) (map l_content body) (map l_content out)) /\
    (forall t, text_steps (e :: es) (map l_content body) t -> exists out,
        (match fixup_of e body with Ok body' => run_fixups (map fixup_of es) body' | Err _ => Err ValueError end) = Ok out /\
        map l_content out = t)).
  { intros K' E' [S1 S2]. split.
    - intros out H. destruct (fixup_of e body) as [b|]; [|discriminate]. destruct (S1 b eq_refl) as [Ht Hb].
      eapply steps_one; [exact Ht|]. now apply (proj1 (IH K' b E' Hb)).
    - intros t H. inversion H as [|? ? ? t' ? Ht Hs]; subst. destruct (S2 t' Ht) as (b & Eb & <-). rewrite Eb.
      apply (proj2 (IH K' b E' (proj2 (S1 b Eb)))). exact Hs. }
  destruct e as [needle replacement prev|needle|needle|]; cbn [exact_from fixup_of] in *.
  - destruct (new_shapes K needle replacement) as [new|] eqn:En; [|discriminate].
    apply (G _ He). now apply replace_step.
  - apply (G _ He). now apply empty_step.
  - apply (G _ He). now apply delete_step.
  - destruct K; [|discriminate]. destruct es; [|discriminate]. destruct (titles_step body Hk) as [S1 S2]. cbn [map run_fixups] in *. split.
    + intros out H. destruct (ptke_article_header_fixer body) as [b|]; [|discriminate]. injection H as ->.
      eapply steps_one; [now apply S1|constructor].
    + intros t H. inversion H as [|? ? ? t' ? Ht Hs]; subst. inversion Hs; subst. destruct (S2 _ Ht) as (b & Eb & <-). rewrite Eb. eauto.
Qed.

(** ** The program's table *)
Lemma program_registered : program_fixups = registered (map (fun e => (fst e, fixup_of (snd e))) program_history).
Proof.
  unfold program_fixups, registered. generalize (@nil (pystr * list fixup)). 
  induction program_history as [|e h IH]; intros r; [reflexivity|]. cbn [fold_left map fst snd]. apply IH.
Qed.
Lemma program_run id body : do_all_fixups program_fixups id body = run_fixups (map fixup_of (entries_of id)) body.
Proof.
  assert (E : fixups_of program_fixups id = map fixup_of (entries_of id)).
  { rewrite program_registered. unfold registered. rewrite fixups_of_history. unfold entries_of. cbn [fixups_of find app].
    generalize program_history. clear. intros h. induction h as [|e h IH]; [reflexivity|]. cbn [map filter fst snd].
    destruct (str_eqb (fst e) id); cbn [map snd]; congruence. }
  rewrite <- E. unfold do_all_fixups, fixups_of. destruct (find _ _) as [[k fs]|]; reflexivity.
Qed.
Lemma entries_unlisted id : ~ In id (map fst program_history) -> entries_of id = [].
Proof.
  unfold entries_of. generalize program_history. intros h. induction h as [|e h IH]; intros H; [reflexivity|]. cbn [map filter] in *.
  destruct (str_eqb (fst e) id) eqn:E; [apply str_eqb_eq in E; exfalso; apply H; now left|]. apply IH. intros Hi. apply H. now right.
Qed.

(** ** The parts of the resulting lines *)
Fixpoint finals (K : list (list pystr)) (es : list fixup_entry) : list (list pystr) :=
  match es with
  | [] => K
  | FReplace needle replacement _ :: t =>
      match new_shapes K needle replacement with Some new => finals (new ++ K) t | None => K end
  | _ :: t => finals K t
  end.
Lemma entries_known es : forall K body out, exact_from K es = true -> ~ In FTitles es -> Forall (known K) body ->
  run_fixups (map fixup_of es) body = Ok out -> Forall (known (finals K es)) out.
Proof.
  induction es as [|e es IH]; intros K body out He Ht Hk H; cbn [map run_fixups] in H; [injection H as <-; exact Hk|].
  assert (Ht' : ~ In FTitles es) by (intros Hi; apply Ht; now right).
  destruct (fixup_of e body) as [b|] eqn:Eb; [|discriminate].
  destruct e as [needle replacement prev|needle|needle|]; cbn [exact_from fixup_of finals] in *.
  - destruct (new_shapes K needle replacement) as [new|] eqn:En; [|discriminate].
    eapply IH; [exact He|exact Ht'| |exact H]. now apply (proj1 (replace_step K needle replacement prev new body En Hk)).
  - eapply IH; [exact He|exact Ht'| |exact H]. now apply (proj1 (empty_step K needle body Hk)).
  - eapply IH; [exact He|exact Ht'| |exact H]. now apply (proj1 (delete_step K needle body Hk)).
  - destruct Ht. now left.
Qed.

(* where the parts end *)
Fixpoint cut_points (n : nat) (sh : list pystr) : list nat :=
  n :: match sh with [] => [] | s :: t => cut_points (n + List.length s) t end.
Lemma cut_points_ok sh : forall n k h rest, In (n + k)%nat (cut_points n sh) -> concat sh = h ++ rest -> List.length h = k ->
  exists a b, sh = a ++ b /\ concat a = h.
Proof.
  induction sh as [|s sh IH]; intros n k h rest Hi E Hl; cbn [cut_points] in Hi.
  - destruct Hi as [Hi|[]]. assert (k = O) by lia. subst k. destruct h; [|discriminate]. exists [], []. auto.
  - destruct k as [|k'] eqn:Ek.
    { destruct h; [|discriminate]. exists [], (s :: sh). auto. }
    rewrite <- Ek in *. destruct Hi as [Hi|Hi]; [lia|]. destruct (Nat.le_gt_cases (List.length s) k) as [Hs|Hs].
    + cbn [concat] in E.
      assert (exists h', h = s ++ h') as (h' & ->).
      { exists (skipn (List.length s) h). rewrite <- (firstn_skipn (List.length s) h) at 1. f_equal.
        assert (firstn (List.length s) (s ++ concat sh) = firstn (List.length s) (h ++ rest)) as F by now rewrite E.
        rewrite firstn_app, firstn_all, Nat.sub_diag, firstn_O, app_nil_r in F. etransitivity; [|symmetry; exact F].
        rewrite firstn_app. replace (List.length s - List.length h)%nat with O by lia. now rewrite firstn_O, app_nil_r. }
      rewrite <- app_assoc in E. apply app_inv_head in E. rewrite app_length in Hl.
      destruct (IH (n + List.length s)%nat (List.length h')%nat h' rest) as (a & b & -> & <-); [|exact E|reflexivity|].
      * replace (n + List.length s + List.length h')%nat with (n + k)%nat by lia. exact Hi.
      * exists (s :: a), b. auto.
    + exfalso. assert (M : forall sh m x, In x (cut_points m sh) -> (m <= x)%nat).
      { clear. induction sh as [|s sh IH]; intros m x H; cbn [cut_points] in H; (destruct H as [<-|H]; [lia|]); [destruct H|].
        apply IH in H. lia. }
      apply M in Hi. lia.
Qed.

Definition inb (set : pystr) (c : N) : bool := existsb (N.eqb c) set.
Lemma inb_ok set c : In c set -> inb set c = true.
Proof. intros H. apply existsb_exists. exists c. split; [exact H|apply N.eqb_refl]. Qed.
Definition ARTICLE_CHARS : pystr := u8 "0123456789:/ABCDEFGHIJKLMNOPQRSTUVWXYZ. ".
Definition PARAGRAPH_CHARS : pystr := u8 "0123456789abcdefghijklmnopqrstuvwxyz".
(* how far a heading can go; every place where one may end *)
Fixpoint span (set : pystr) (s : pystr) : nat := match s with c :: t => if inb set c then S (span set t) else O | [] => O end.
Lemma span_app set x : forall y, Forall (fun c => In c set) x -> (List.length x <= span set (x ++ y))%nat.
Proof.
  induction x as [|c x IH]; intros y H; [cbn; lia|]. inversion H; subst. cbn [app span List.length].
  rewrite inb_ok by assumption. specialize (IH y H3). lia.
Qed.
Lemma span_stop set x c y : Forall (fun c => In c set) x -> inb set c = false -> span set (x ++ c :: y) = List.length x.
Proof.
  intros H Hc. induction H; cbn [app span List.length]; [now rewrite Hc|]. rewrite inb_ok by assumption. now rewrite IHForall.
Qed.
(* the end of the article's number in front, of the paragraph's number *)
Definition article_ends (s : pystr) : list nat :=
  O :: let n := span ARTICLE_CHARS s in if startswith (u8 "§ ") (skipn n s) then [(n + 2)%nat] else [].
Definition paragraph_ends (s : pystr) : list nat :=
  O :: if startswith (u8 "(") s then
         let n := span PARAGRAPH_CHARS (skipn 1 s) in if startswith (u8 ") ") (skipn (S n) s) then [(n + 3)%nat] else []
       else [].
Definition heading_ends (s : pystr) : list nat :=
  flat_map (fun q => flat_map (fun a => map (fun p => (q + a + p)%nat) (paragraph_ends (skipn (q + a) s))) (article_ends (skipn q s)))
    (O :: if startswith (u8 "„") s then [1%nat] else []).

Lemma article_ends_ok a rest : a = [] \/ article_number a -> In (List.length a) (article_ends (a ++ rest)).
Proof.
  intros [->|(x & -> & Hx)]; [now left|]. right. cbv zeta. rewrite <- app_assoc.
  change (u8 "§ " ++ rest) with (167%N :: 32%N :: rest). rewrite (span_stop ARTICLE_CHARS) by (assumption || reflexivity).
  rewrite skipn_app, skipn_all, Nat.sub_diag. cbn [app skipn startswith]. rewrite !N.eqb_refl. cbn [andb].
  rewrite app_length. now left.
Qed.
Lemma paragraph_ends_ok p rest : p = [] \/ paragraph_number p -> In (List.length p) (paragraph_ends (p ++ rest)).
Proof.
  intros [->|(x & -> & Hx)]; [now left|]. right. cbv zeta. rewrite <- !app_assoc.
  change (u8 "(" ++ x ++ u8 ") " ++ rest) with (40%N :: x ++ 41%N :: 32%N :: rest). cbn [startswith skipn].
  rewrite N.eqb_refl. cbn [andb]. rewrite (span_stop PARAGRAPH_CHARS) by (assumption || reflexivity).
  rewrite skipn_app, skipn_all, Nat.sub_diag. cbn [app skipn startswith]. rewrite !N.eqb_refl. cbn [andb].
  cbn [List.length]. rewrite app_length. left. cbn. lia.
Qed.
Lemma heading_ends_ok h rest : line_heading h -> In (List.length h) (heading_ends (h ++ rest)).
Proof.
  intros (q & a & p & -> & Hq & Ha & Hp). unfold heading_ends. rewrite <- !app_assoc. apply in_flat_map. exists (List.length q). split.
  - destruct Hq as [->| ->]; [now left|right; now left].
  - rewrite skipn_app, skipn_all, Nat.sub_diag. cbn [app skipn]. apply in_flat_map. exists (List.length a). split; [now apply article_ends_ok|].
    apply in_map_iff. exists (List.length p). split; [rewrite !app_length; lia|].
    replace (skipn (List.length q + List.length a) (q ++ a ++ p ++ rest)) with (p ++ rest); [now apply paragraph_ends_ok|].
    rewrite (app_assoc q a). rewrite <- app_length. now rewrite skipn_app, skipn_all, Nat.sub_diag.
Qed.
Definition well_cut (sh : list pystr) : bool :=
  forallb (fun k => existsb (Nat.eqb k) (cut_points 0 sh)) (heading_ends (concat sh)).
Lemma well_cut_ok l h rest : well_cut (shape l) = true -> l_content l = h ++ rest -> line_heading h -> can_be_cut l h.
Proof.
  intros Hw E Hh. unfold well_cut in Hw. rewrite forallb_forall in Hw. rewrite shape_content in E.
  specialize (Hw (List.length h)). rewrite E in Hw. specialize (Hw (heading_ends_ok h rest Hh)).
  apply existsb_exists in Hw as (k & Hk & Ek). apply Nat.eqb_eq in Ek. subst k.
  exact (cut_points_ok (shape l) 0 (List.length h) h rest Hk E eq_refl).
Qed.
Lemma one_char_cut l h rest : one_char_parts l -> l_content l = h ++ rest -> can_be_cut l h.
Proof.
  intros H E. exists (characters h), (characters rest). fold (shape l). rewrite one_char_shape by assumption. rewrite E.
  unfold characters. rewrite map_app. split; [reflexivity|]. clear. induction h; cbn; congruence.
Qed.
