From Coq Require Import Lia.
From Coq Require Import ZifyBool ZifyNat ZifyN.
From Coq Require Import Permutation Sorted.
From Verif Require Import PyBase PyBaseFacts NumSpec IdModel IdSpec LineModel DateModel RefModel RefSpec
  TreeModel TreeSpec TreeProofs TreeProofs2 TreeProofs3 SemModel SemSpec.
Local Open Scope Z_scope.

(** * Unfolding *)

Fixpoint add_children (an : analyzer) (l : list child) (prefix postfix : pystr) (st : sem_state)
  : res (list child * sem_state) :=
  match l with
  | [] => Ok ([], st)
  | ChSae c :: t =>
      ' (c, st) <- add_semantics_to_sae an c prefix postfix st ;;
      ' (t, st) <- add_children an t prefix postfix st ;;
      Ok (ChSae c :: t, st)
  | c :: t => ' (t, st) <- add_children an t prefix postfix st ;; Ok (c :: t, st)
  end.
Definition inner_prefix (prefix : pystr) (n : option pystr) : pystr :=
  match n with Some x => prefix ++ x ++ u8 " " | None => prefix end.
Definition inner_postfix (postfix : pystr) (w : option pystr) : pystr :=
  match w with Some x => u8 " " ++ x ++ postfix | None => postfix end.
(* the part after the checks *)
Definition reparse (an : analyzer) (e : sae) (prefix postfix : pystr) (st : sem_state) : res (sae * sem_state) :=
  match s_text e with
  | Some text =>
      ' (m, st) <- parse_text an text prefix postfix st ;;
      e' <- new_sae (s_kind e) (s_identifier e) (Some text) (s_intro e) (s_children e) (s_wrap_up e) m ;;
      Ok (e', st)
  | None =>
      ' (m, st) <- (match s_intro e with
                    | Some intro => parse_text an intro prefix [] st
                    | None => Ok (EMPTY_META, st)
                    end) ;;
      match s_children e with
      | None => Err AssertionError
      | Some cs =>
          ' (cs, st) <- add_children an cs (inner_prefix prefix (s_intro e)) (inner_postfix postfix (s_wrap_up e)) st ;;
          e' <- new_sae (s_kind e) (s_identifier e) None (s_intro e) (Some cs) (s_wrap_up e) m ;;
          Ok (e', st)
      end
  end.
Lemma add_sae_eq an e prefix postfix st :
  add_semantics_to_sae an e prefix postfix st =
  if negb (st_changed st) && is_semantic_parsed e then
    l <- existing_abbreviations e ;; Ok (e, add_to_state st l)
  else if negb (can_be_semantic_parsed (s_kind e)) then Ok (e, st)
  else reparse an e prefix postfix st.
Proof.
  assert (G : forall p q l st, (fix go (l : list child) (st : sem_state) : res (list child * sem_state) :=
                             match l with
                             | [] => Ok ([], st)
                             | ChSae c :: t =>
                                 ' (c, st) <- add_semantics_to_sae an c p q st ;;
                                 ' (t, st) <- go t st ;;
                                 Ok (ChSae c :: t, st)
                             | c :: t => ' (t, st) <- go t st ;; Ok (c :: t, st)
                             end) l st = add_children an l p q st).
  { intros p q. induction l as [|c l IH]; intros s; [reflexivity|].
    destruct c; cbn [add_children]; rewrite ?IH; try reflexivity.
    destruct (add_semantics_to_sae an s0 p q s) as [[x s1]|]; cbn [bind]; [|reflexivity]. now rewrite IH. }
  destruct e as [k i t n cs w m]. cbn [add_semantics_to_sae].
  destruct (negb (st_changed st) && is_semantic_parsed (mk_sae k i t n cs w m)); [reflexivity|].
  cbn [s_kind]. destruct (negb (can_be_semantic_parsed k)); [reflexivity|].
  unfold reparse. cbn [s_text s_intro s_children s_wrap_up s_kind s_identifier].
  destruct t; [reflexivity|].
  destruct (match n with Some intro => parse_text an intro prefix [] st | None => Ok (EMPTY_META, st) end) as [[m1 st1]|];
    cbn [bind]; [|reflexivity].
  destruct cs as [cs|]; [|reflexivity]. rewrite G. reflexivity.
Qed.

Fixpoint existing_children (l : list child) : res (list act_id_abbreviation) :=
  match l with
  | [] => Ok []
  | ChSae c :: t => x <- existing_abbreviations c ;; y <- existing_children t ;; Ok (x ++ y)
  | _ :: t => existing_children t
  end.
Lemma existing_eq e : existing_abbreviations e =
  if negb (can_be_semantic_parsed (s_kind e)) then Ok []
  else match m_abbreviations (s_meta e) with
       | None => Err AssertionError
       | Some own => match s_children e with
                     | None => Ok own
                     | Some cs => rest <- existing_children cs ;; Ok (own ++ rest)
                     end
       end.
Proof.
  destruct e as [k i t n cs w m]. cbn [existing_abbreviations s_kind s_meta s_children].
  destruct (negb (can_be_semantic_parsed k)); [reflexivity|]. destruct (m_abbreviations m); [|reflexivity].
  destruct cs as [cs|]; [|reflexivity].
  assert (G : forall l, (fix go (l : list child) : res (list act_id_abbreviation) :=
                           match l with
                           | [] => Ok []
                           | ChSae c :: t => x <- existing_abbreviations c ;; y <- go t ;; Ok (x ++ y)
                           | _ :: t => go t
                           end) l = existing_children l).
  { induction l0 as [|c l0 IH]; [reflexivity|]. destruct c; cbn [existing_children]; rewrite ?IH; reflexivity. }
  now rewrite G.
Qed.

Fixpoint all_parsed (l : list child) : bool :=
  match l with
  | ChSae c :: t =>
      if can_be_semantic_parsed (s_kind c) && negb (is_semantic_parsed c) then false else all_parsed t
  | _ :: _ => true
  | [] => true
  end.
Lemma is_parsed_eq e : is_semantic_parsed e =
  match m_semantic (s_meta e) with
  | None => false
  | Some _ => match s_children e with Some cs => all_parsed cs | None => true end
  end.
Proof.
  destruct e as [k i t n cs w m]. cbn [is_semantic_parsed s_meta s_children].
  destruct (m_semantic m); [|reflexivity]. destruct cs as [cs|]; [|reflexivity].
  induction cs as [|c cs IH]; [reflexivity|]. destruct c; cbn [all_parsed]; try reflexivity; now rewrite IH.
Qed.

Definition child_carriers (l : list child) : list sae :=
  flat_map (fun c => match c with ChSae s => carriers s | _ => [] end) l.
Lemma carriers_eq e : can_be_semantic_parsed (s_kind e) = true ->
  carriers e = e :: match s_children e with None => [] | Some cs => child_carriers cs end.
Proof. destruct e as [k i t n [cs|] w m]; destruct k; cbn; try discriminate; reflexivity. Qed.
Lemma carriers_container e : can_be_semantic_parsed (s_kind e) = false -> carriers e = [].
Proof. destruct e as [k i t n [cs|] w m]; destruct k; cbn; try discriminate; reflexivity. Qed.

Definition bare_ch (c : child) : child := match c with ChSae s => ChSae (bare s) | _ => c end.
Lemma bare_eq e : can_be_semantic_parsed (s_kind e) = true ->
  bare e = mk_sae (s_kind e) (s_identifier e) (s_text e) (s_intro e)
             (match s_children e with None => None | Some l => Some (map bare_ch l) end) (s_wrap_up e) NO_META.
Proof. destruct e as [k i t n [cs|] w m]; destruct k; cbn; try discriminate; reflexivity. Qed.
Lemma bare_container e : can_be_semantic_parsed (s_kind e) = false -> bare e = e.
Proof. destruct e as [k i t n [cs|] w m]; destruct k; cbn; try discriminate; reflexivity. Qed.
Lemma bare_kind e : s_kind (bare e) = s_kind e.
Proof. destruct e as [k i t n [cs|] w m]; destruct k; reflexivity. Qed.
Lemma bare_identifier e : s_identifier (bare e) = s_identifier e.
Proof. destruct e as [k i t n [cs|] w m]; destruct k; reflexivity. Qed.
Lemma bare_ch_class c : class_of (bare_ch c) = class_of c.
Proof. destruct c; cbn; rewrite ?bare_kind; reflexivity. Qed.

Definition child_readings (l : list child) (before after : pystr) : list reading :=
  flat_map (fun c => match c with ChSae s => readings s before after | _ => [] end) l.
Lemma readings_container e p q : can_be_semantic_parsed (s_kind e) = false -> readings e p q = [].
Proof. destruct e as [k i t n [cs|] w m]; destruct k; cbn; try discriminate; reflexivity. Qed.
Lemma inner_prefix_eq p n : p ++ match n with Some x => x ++ u8 " " | None => [] end = inner_prefix p n.
Proof. destruct n; cbn [inner_prefix]; [reflexivity|apply app_nil_r]. Qed.
Lemma inner_postfix_eq q w : match w with Some x => u8 " " ++ x | None => [] end ++ q = inner_postfix q w.
Proof. destruct w; cbn [inner_postfix]; [now rewrite <- app_assoc|reflexivity]. Qed.
Lemma readings_text e p q t : can_be_semantic_parsed (s_kind e) = true -> s_text e = Some t ->
  readings e p q = [mk_reading (Some t) p q].
Proof. destruct e as [k i t' n cs w m]; destruct k; cbn; try discriminate; intros _ ->; reflexivity. Qed.
Lemma readings_children e p q cs : can_be_semantic_parsed (s_kind e) = true -> s_text e = None -> s_children e = Some cs ->
  readings e p q = mk_reading (s_intro e) p [] ::
    child_readings cs (inner_prefix p (s_intro e)) (inner_postfix q (s_wrap_up e)).
Proof.
  intros K T C. destruct e as [k i t' n cs' w m]. cbn [s_kind s_text s_children s_intro s_wrap_up] in *. subst.
  assert (E : readings (mk_sae k i None n (Some cs) w m) p q = mk_reading n p [] ::
     child_readings cs (p ++ match n with Some x => x ++ u8 " " | None => [] end)
       (match w with Some x => u8 " " ++ x | None => [] end ++ q)) by (destruct k; try discriminate; reflexivity).
  rewrite E, inner_prefix_eq, inner_postfix_eq. reflexivity.
Qed.

(** * Single texts *)

Lemma cut_ends_fold js s : cut_ends js s
  (fold_left (fun t junk => if endswith junk t then firstn (List.length t - List.length junk) t else t) js s).
Proof.
  revert s. induction js as [|j js IH]; intros s; cbn [fold_left]; [constructor|].
  destruct (endswith j s) eqn:E.
  - apply endswith_spec in E as (a & ->).
    rewrite (app_length a j), Nat.add_sub, firstn_app, Nat.sub_diag, firstn_all. cbn [firstn]. rewrite app_nil_r.
    constructor. apply IH.
  - constructor; [|apply IH]. intros a ->. assert (endswith j (a ++ j) = true) by (apply endswith_spec; eauto). congruence.
Qed.
Lemma cut_ends_fun js : forall s r r', cut_ends js s r -> cut_ends js s r' -> r = r'.
Proof.
  induction js as [|j js IH]; intros s r r' H H'.
  - inversion H; inversion H'; subst; congruence.
  - remember (j :: js) as l eqn:El. destruct H as [|j1 js1 s1 r1 H|j1 js1 s1 r1 N H]; [discriminate| |]; injection El as -> ->.
    + remember (j :: js) as l eqn:El. remember (s1 ++ j) as z eqn:Ez.
      destruct H' as [|j2 js2 s2 r2 H'|j2 js2 s2 r2 N H']; [discriminate| |]; injection El as -> ->.
      * apply app_inv_tail in Ez. subst. eauto.
      * exfalso. eapply N. exact Ez.
    + remember (j :: js) as l eqn:El. destruct H' as [|j2 js2 s2 r2 H'|j2 js2 s2 r2 N' H']; [discriminate| |]; injection El as -> ->.
      * exfalso. eapply N. reflexivity.
      * eauto.
Qed.
Lemma last_chr_ok s (c : N) : last_chr s = Ok c <-> exists a, s = a ++ [c].
Proof.
  unfold last_chr. split.
  - destruct (rev s) as [|x t] eqn:E; [discriminate|]. intros [= ->]. exists (rev t).
    rewrite <- (rev_involutive s), E. reflexivity.
  - intros (a & ->). rewrite rev_app_distr. reflexivity.
Qed.
Lemma closed_last a c : closed_sentence (a ++ [c]) <-> In c (u8 ".:!?").
Proof.
  split; [|intros H; now exists a, c]. intros (b & d & E & H). apply app_inj_tail in E as [_ ->]. exact H.
Qed.
Lemma fix_end_spec s after r :
  fix_list_element_end s (match after with [] => true | _ => false end) = Ok r <-> item_text s after r.
Proof.
  unfold fix_list_element_end, item_text. pose proof (cut_ends_fold LIST_ENDS s) as C.
  change (fold_left _ LIST_ENDS s) with (cut_junk s) in C. cbv zeta.
  assert (F : forall t, cut_ends LIST_ENDS s t <-> t = cut_junk s).
  { intros t. split; [intros H; exact (cut_ends_fun _ _ _ _ H C)|intros ->; exact C]. }
  generalize dependent (cut_junk s). intros u _ F. split.
  - intros H. exists u. split; [now apply F|]. destruct after as [|x after].
    + apply bind_ok in H as (c & L & H). right. apply last_chr_ok in L as (a & ->).
      destruct (mem_chr c (u8 ".:!?")) eqn:M; injection H as <-.
      * left. repeat split. apply closed_last. now apply mem_chr_In.
      * right. repeat split; [now destruct a|]. intros H. apply closed_last in H. apply mem_chr_In in H. congruence.
    + injection H as <-. left. split; [discriminate|reflexivity].
  - intros (t & T & H). apply F in T. subst t.
    destruct H as [[A ->]|[(-> & Cl & ->)|(-> & N & Cl & ->)]].
    + destruct after; [congruence|reflexivity].
    + destruct Cl as (a & c & -> & H). apply bind_ok. exists c. split; [apply last_chr_ok; eauto|].
      apply mem_chr_In in H. now rewrite H.
    + destruct (exists_last N) as (a & c & ->). apply bind_ok. exists c. split; [apply last_chr_ok; eauto|].
      destruct (mem_chr c (u8 ".:!?")) eqn:M; [|reflexivity]. exfalso. apply Cl, closed_last. now apply mem_chr_In.
Qed.

Lemma worth_spec s : worth_reading s <->
  (10000 <? Z.of_nat (List.length s)) = false /\
  existsb (fun w => contains_sub w s) INTERESTING_SUBSTRINGS = true.
Proof.
  unfold worth_reading. rewrite existsb_exists. split.
  - intros [L (w & a & b & H & E)]. split; [lia|]. exists w. split; [exact H|]. apply contains_sub_spec. eauto.
  - intros [L (w & H & E)]. split; [lia|]. apply contains_sub_spec in E as (a & b & E). exists w, a, b. auto.
Qed.

Lemma find_rev_some {A} (f : A -> bool) l x :
  find f (rev l) = Some x <-> exists l1 l2, l = l1 ++ x :: l2 /\ f x = true /\ Forall (fun y => f y = false) l2.
Proof.
  induction l as [|y l IH] using rev_ind.
  - split; [discriminate|]. intros (l1 & l2 & E & _). destruct l1; discriminate.
  - rewrite rev_app_distr. cbn [rev app find]. destruct (f y) eqn:F.
    + split.
      * intros [= ->]. exists l, []. repeat split; auto.
      * intros (l1 & l2 & E & Fx & HA). destruct l2 as [|z l2 _] using rev_ind.
        -- apply app_inj_tail in E as [_ ->]. reflexivity.
        -- rewrite app_comm_cons, app_assoc in E. apply app_inj_tail in E as [_ ->]. apply Forall_app in HA as [_ HA].
           inversion HA; congruence.
    + rewrite IH. split.
      * intros (l1 & l2 & -> & Fx & HA). exists l1, (l2 ++ [y]). rewrite <- app_assoc. repeat split; auto.
        apply Forall_app. auto.
      * intros (l1 & l2 & E & Fx & HA). destruct l2 as [|z l2 _] using rev_ind.
        -- apply app_inj_tail in E as [_ ->]. congruence.
        -- rewrite app_comm_cons, app_assoc in E. apply app_inj_tail in E as [-> ->]. apply Forall_app in HA as [HA _].
           exists l1, l2. auto.
Qed.
Lemma map_meaning l : meaning l (abbreviations_map l).
Proof.
  intros k v. unfold abbreviations_map, stands_for. split.
  - destruct (find _ (rev l)) as [a|] eqn:E; [|discriminate]. intros [= <-].
    apply find_rev_some in E as (l1 & l2 & -> & F & A). apply str_eqb_eq in F. subst k.
    exists l1, l2. destruct a as [x y]. cbn [ab_abbreviation ab_act] in *. split; [reflexivity|].
    eapply Forall_impl; [|exact A]. cbn. intros z Hz E. rewrite E, str_eqb_refl in Hz. discriminate.
  - intros (l1 & l2 & -> & A).
    assert (E : find (fun a => str_eqb (ab_abbreviation a) k) (rev (l1 ++ mk_abbreviation k v :: l2)) = Some (mk_abbreviation k v)).
    { apply find_rev_some. exists l1, l2. cbn [ab_abbreviation]. split; [reflexivity|]. split; [apply str_eqb_refl|].
      eapply Forall_impl; [|exact A]. cbn. intros z Hz. now apply str_eqb_neq. }
    now rewrite E.
Qed.

Lemma outgoing_lt_false y x : outgoing_lt y x = Ok false -> position_le x y.
Proof.
  unfold outgoing_lt, position_le. destruct (or_start y =? or_start x) eqn:E1; cbn [negb].
  - destruct (or_end y =? or_end x) eqn:E2; cbn [negb]; intros H; [right; lia|]. injection H as H. right. lia.
  - intros H. injection H as H. left. lia.
Qed.
Lemma outgoing_lt_true y x : outgoing_lt y x = Ok true -> position_le y x.
Proof.
  unfold outgoing_lt, position_le. destruct (or_start y =? or_start x) eqn:E1; cbn [negb].
  - destruct (or_end y =? or_end x) eqn:E2; cbn [negb]; intros H; [right; lia|]. injection H as H. right. lia.
  - intros H. injection H as H. left. lia.
Qed.
Lemma position_le_trans a b c : position_le a b -> position_le b c -> position_le a c.
Proof. unfold position_le. lia. Qed.
Lemma insert_outgoing_ok x l r : StronglySorted position_le l -> insert_outgoing x l = Ok r ->
  Permutation (x :: l) r /\ StronglySorted position_le r.
Proof.
  revert r. induction l as [|y l IH]; intros r S H.
  - injection H as <-. split; [reflexivity|]. repeat constructor.
  - cbn [insert_outgoing] in H. apply bind_ok in H as (lt & L & H). inversion S as [|? ? Sl Fl]; subst. destruct lt.
    + apply bind_ok in H as (r' & R & H). injection H as <-. destruct (IH _ Sl R) as [P S'].
      split; [rewrite perm_swap; now constructor|]. constructor; [exact S'|].
      apply (Permutation_Forall P). constructor; [now apply outgoing_lt_true|exact Fl].
    + injection H as <-. split; [reflexivity|]. constructor; [exact S|]. apply outgoing_lt_false in L.
      constructor; [exact L|]. eapply Forall_impl; [|exact Fl]. intros z. now apply position_le_trans.
Qed.
Lemma sort_outgoing_ok l : forall r, sort_outgoing l = Ok r -> Permutation l r /\ StronglySorted position_le r.
Proof.
  induction l as [|x l IH]; intros r H.
  - injection H as <-. split; constructor.
  - cbn [sort_outgoing] in H. apply bind_ok in H as (s & E & H). destruct (IH _ E) as [P S].
    destruct (insert_outgoing_ok _ _ _ S H) as [P' S']. split; [|exact S'].
    rewrite <- P'. now constructor.
Qed.
Lemma kept_spec m p t l : exists found, kept_references m p t l found /\
  flat_map (fun r =>
       if (or_end r <=? Z.of_nat p) || (Z.of_nat p + Z.of_nat t <? or_end r) then []
       else [mk_outgoing (Z.max (or_start r - Z.of_nat p) 0) (or_end r - Z.of_nat p)
                         (resolve_abbreviations (or_reference r) m)]) l = found.
Proof.
  induction l as [|r l (found & K & E)]; [exists []; split; [constructor|reflexivity]|]. cbn [flat_map]. rewrite E.
  destruct (_ || _) eqn:B; (eexists; split; [|reflexivity]); cbn [app].
  - apply kept_out; [unfold ends_inside; lia|exact K].
  - rewrite Z.max_comm. apply kept_in; [unfold ends_inside; lia|exact K].
Qed.

Lemma parse_text_stored an s p q st m st' : parse_text an s p q st = Ok (m, st') ->
  stored an (st_abbreviations st) (mk_reading (Some s) p q) m /\
  exists ab, m_abbreviations m = Some ab /\ st_abbreviations st' = st_abbreviations st ++ ab /\
    m_semantic m <> None.
Proof.
  unfold parse_text, stored. cbn [rd_text rd_before rd_after]. intros H. apply bind_ok in H as (t & T & H).
  apply fix_end_spec in T. set (whole := p ++ t ++ q) in *.
  destruct (10000 <? Z.of_nat (List.length whole)) eqn:L.
  { injection H as <- <-. split; [|exists []; cbn; rewrite app_nil_r; repeat split; congruence].
    exists t. split; [exact T|]. cbv zeta. split; [reflexivity|]. intros W. apply worth_spec in W. unfold whole in L.
    destruct W. congruence. }
  destruct (existsb _ INTERESTING_SUBSTRINGS) eqn:X; cbn [negb] in H.
  2:{ injection H as <- <-. split; [|exists []; cbn; rewrite app_nil_r; repeat split; congruence].
      exists t. split; [exact T|]. cbv zeta. split; [reflexivity|]. intros W. apply worth_spec in W. destruct W. unfold whole in X. congruence. }
  apply bind_ok in H as (a & A & H). apply bind_ok in H as (refs & R & H). injection H as <- <-.
  unfold analyze in A. destruct (an whole) as [a'|] eqn:Ea; [|discriminate]. injection A as ->.
  assert (ST : st_abbreviations (match an_abbreviations a with
              | [] => st
              | l => mk_state (st_abbreviations st ++ l) true
              end) = st_abbreviations st ++ an_abbreviations a).
  { destruct (an_abbreviations a); [now rewrite app_nil_r|reflexivity]. }
  rewrite ST in *. split.
  - exists t. split; [exact T|]. cbv zeta. split; [intros W; exfalso; apply W, worth_spec; auto|]. intros _.
    unfold convert_parsed_references in R.
    assert (EL : Z.of_nat (List.length whole) - Z.of_nat (List.length q) = Z.of_nat (List.length p) + Z.of_nat (List.length t)).
    { unfold whole. rewrite !app_length. lia. }
    rewrite EL in R. destruct (kept_spec (abbreviations_map (st_abbreviations st ++ an_abbreviations a)) (List.length p) (List.length t) (an_references a)) as (found & K & E).
    rewrite E in R. apply sort_outgoing_ok in R as [P S].
    exists a, (abbreviations_map (st_abbreviations st ++ an_abbreviations a)), found, refs.
    split; [exact Ea|]. split; [apply map_meaning|]. split; [exact K|]. split; [exact P|]. split; [exact S|]. reflexivity.
  - exists (an_abbreviations a). cbn. repeat split; congruence.
Qed.
