From Coq Require Import ZifyBool ZifyNat ZifyN.
From Verif Require Import PyBase PyBaseFacts NumModel NumSpec.
Local Open Scope Z_scope.
Ltac Zify.zify_post_hook ::= Z.div_mod_to_equations.

(** * Roman numerals *)

Lemma roman_loop_spec fuel i acc :
  (Z.to_nat i <= fuel)%nat -> 1000 <= i ->
  int_to_text_roman_loop fuel i acc =
  int_to_text_roman_loop (Nat.pred fuel) (i - 1000) (acc ++ [77%N]).
Proof.
  intros Hf Hi. destruct fuel as [|f]; [lia|].
  cbn [int_to_text_roman_loop]. replace (0 <? i) with true by lia.
  unfold roman_numerals; cbn [List.find]. replace (1000 <=? i) with true by lia. reflexivity.
Qed.

Lemma roman_loop_mono f1 : forall f2 i acc s,
  (f1 <= f2)%nat -> int_to_text_roman_loop f1 i acc = Some s ->
  int_to_text_roman_loop f2 i acc = Some s.
Proof.
  induction f1 as [|f1 IH]; intros f2 i acc s Hf H.
  - destruct f2; cbn [int_to_text_roman_loop] in *; destruct (0 <? i); congruence.
  - destruct f2 as [|f2]; [lia|]. cbn [int_to_text_roman_loop] in *.
    destruct (0 <? i); [|assumption].
    destruct (List.find _ _) as [[t v]|]; apply IH; auto; lia.
Qed.

Lemma roman_loop_acc f : forall i acc,
  int_to_text_roman_loop f i acc = option_map (app acc) (int_to_text_roman_loop f i []).
Proof.
  induction f as [|f IH]; intros i acc; cbn [int_to_text_roman_loop]; destruct (0 <? i);
    try (simpl; now rewrite ?app_nil_r).
  destruct (List.find _ _) as [[t v]|].
  - rewrite IH, (IH _ ([] ++ t)). destruct (int_to_text_roman_loop f (i - v) []); simpl;
      now rewrite ?app_assoc.
  - rewrite IH. destruct (int_to_text_roman_loop f i []); reflexivity.
Qed.

Definition z_range (n : nat) : list Z := map Z.of_nat (seq 0 n).
Lemma z_range_In n i : 0 <= i < Z.of_nat n -> In i (z_range n).
Proof.
  intros H. unfold z_range. apply in_map_iff. exists (Z.to_nat i). split; [lia|].
  apply in_seq. lia.
Qed.

Lemma opt_str_eqb_eq (a b : option pystr) : opt_eqb str_eqb a b = true -> a = b.
Proof. apply opt_eqb_eq, str_eqb_eq. Qed.

Lemma roman_small :
  forallb (fun i => opt_eqb str_eqb (int_to_text_roman_loop (Z.to_nat i) i []) (Some (roman i)))
          (z_range 1000) = true.
Proof. vm_compute. reflexivity. Qed.

Lemma roman_step i : 1000 <= i -> roman i = 77%N :: roman (i - 1000).
Proof.
  intros H. unfold roman, group.
  replace (Z.to_nat (i / 1000)) with (S (Z.to_nat ((i - 1000) / 1000))) by lia.
  cbn [repeat app]. do 3 f_equal.
  - replace ((i - 1000) / 100 mod 10) with (i / 100 mod 10); [reflexivity|]. lia.
  - f_equal.
    + replace ((i - 1000) / 10 mod 10) with (i / 10 mod 10); [reflexivity|]. lia.
    + replace ((i - 1000) mod 10) with (i mod 10); [reflexivity|]. lia.
Qed.

Lemma roman_loop_roman n : forall i, (Z.to_nat i <= n)%nat -> 0 <= i ->
  int_to_text_roman_loop (Z.to_nat i) i [] = Some (roman i).
Proof.
  induction n as [|n IH]; intros i Hn Hi.
  - replace i with 0 by lia. reflexivity.
  - destruct (Z.ltb_spec i 1000) as [Hlt|Hge].
    + apply opt_str_eqb_eq.
      pose proof roman_small as HS. rewrite forallb_forall in HS.
      apply (HS i). apply z_range_In. lia.
    + rewrite roman_loop_spec by lia. rewrite roman_loop_acc.
      rewrite (roman_loop_mono (Z.to_nat (i - 1000)) _ _ _ (roman (i - 1000))); [|lia|apply IH; lia].
      simpl. now rewrite (roman_step i).
Qed.

Lemma int_to_text_roman_pos i : 0 <= i -> int_to_text_roman i = Ok (roman i).
Proof.
  intros H. unfold int_to_text_roman. now rewrite (roman_loop_roman (Z.to_nat i)) by lia.
Qed.

Lemma int_to_text_roman_nonpos i : i <= 0 -> int_to_text_roman i = Ok [].
Proof.
  intros H. unfold int_to_text_roman. destruct (Z.to_nat i) eqn:E; [|lia].
  cbn [int_to_text_roman_loop]. replace (0 <? i) with false by lia. reflexivity.
Qed.

(** The parser of roman numerals *)

Definition roman_find (s : pystr) :=
  List.find (fun '(text, _) => str_eqb text (firstn (List.length text) s)) roman_numerals.

Lemma prefix_loop_eq f s r :
  roman_prefix_loop (S f) s r =
  match s with
  | [] => (r, s)
  | _ => match roman_find s with
         | Some (text, val) => roman_prefix_loop f (skipn (List.length text) s) (r + val)
         | None => (r, s)
         end
  end.
Proof. reflexivity. Qed.

Lemma prefix_loop_ne f s r : s <> [] ->
  roman_prefix_loop (S f) s r =
  match roman_find s with
  | Some (text, val) => roman_prefix_loop f (skipn (List.length text) s) (r + val)
  | None => (r, s)
  end.
Proof. intros H. rewrite prefix_loop_eq. destruct s; [congruence|reflexivity]. Qed.

Lemma roman_find_len s t v : roman_find s = Some (t, v) ->
  (1 <= List.length t)%nat /\ firstn (List.length t) s = t /\ 1 <= v.
Proof.
  intros H. apply find_some in H as [Hin E]. apply str_eqb_eq in E. split; [|split].
  - assert (Hall : forallb (fun '(t, v) => (1 <=? List.length t)%nat && (1 <=? v)) roman_numerals = true)
      by reflexivity.
    rewrite forallb_forall in Hall. specialize (Hall _ Hin). simpl in Hall. lia.
  - auto.
  - assert (Hall : forallb (fun '(t, v) => (1 <=? List.length t)%nat && (1 <=? v)) roman_numerals = true)
      by reflexivity.
    rewrite forallb_forall in Hall. specialize (Hall _ Hin). simpl in Hall. lia.
Qed.

Lemma prefix_loop_fuel f1 : forall f2 s r,
  (List.length s <= f1)%nat -> (List.length s <= f2)%nat ->
  roman_prefix_loop f1 s r = roman_prefix_loop f2 s r.
Proof.
  induction f1 as [|f1 IH]; intros f2 s r H1 H2.
  - destruct s; [|simpl in H1; lia]. destruct f2; reflexivity.
  - destruct f2 as [|f2]; [destruct s; [reflexivity|simpl in H2; lia]|].
    rewrite !prefix_loop_eq. destruct s as [|c s']; [reflexivity|].
    set (s := c :: s') in *. destruct (roman_find s) as [[t v]|] eqn:E; [|reflexivity].
    apply roman_find_len in E as (L & _). apply IH; rewrite skipn_length; lia.
Qed.

Definition not_roman_head (p : pystr) : Prop :=
  match p with [] => True | c :: _ => ~ In c roman_letters end.

Lemma roman_texts_letters :
  forallb (fun '(t, v) => forallb (fun c => mem_chr c roman_letters) t
      && ((List.length t =? 1)%nat || (List.length t =? 2)%nat)) roman_numerals = true.
Proof. reflexivity. Qed.

Lemma match_head_app s p t :
  s <> [] -> not_roman_head p -> In t (map fst roman_numerals) ->
  str_eqb t (firstn (List.length t) (s ++ p)) = str_eqb t (firstn (List.length t) s).
Proof.
  intros Hs Hp Ht. apply in_map_iff in Ht as ((t' & v) & E & Hin). simpl in E; subst t'.
  pose proof roman_texts_letters as HR. rewrite forallb_forall in HR.
  specialize (HR _ Hin). simpl in HR. apply andb_true_iff in HR as [HL HN].
  rewrite forallb_forall in HL.
  destruct s as [|c [|d s]]; [congruence| |].
  - destruct t as [|x [|y [|z t]]]; try (simpl in HN; discriminate); try reflexivity.
    destruct p as [|q p]; [reflexivity|]. simpl.
    simpl in Hp. assert (Hy : mem_chr y roman_letters = true) by (apply HL; simpl; auto).
    apply mem_chr_In in Hy.
    unfold str_eqb; simpl.
    destruct (N.eqb_spec y q) as [->|]; [contradiction|]. now destruct (x =? c)%N.
  - destruct t as [|x [|y [|z t]]]; try (simpl in HN; discriminate); reflexivity.
Qed.

Lemma roman_find_app s p : s <> [] -> not_roman_head p ->
  roman_find (s ++ p) = roman_find s.
Proof.
  intros Hs Hp. unfold roman_find.
  assert (G : forall l, incl (map fst l) (map fst roman_numerals) ->
    List.find (fun '(text, _) => str_eqb text (firstn (List.length text) (s ++ p))) l =
    List.find (fun '(text, _) => str_eqb text (firstn (List.length text) s)) (l : list (pystr * Z))).
  { induction l as [|[t v] l IH]; intros Hl; [reflexivity|]. simpl.
    rewrite match_head_app; auto; [|apply Hl; simpl; auto].
    rewrite IH; [reflexivity|]. intros x Hx. apply Hl. simpl; auto. }
  apply G. intros x Hx; exact Hx.
Qed.

Lemma roman_find_nil_head p : not_roman_head p -> p <> [] -> roman_find p = None.
Proof.
  intros Hp Hne. destruct (roman_find p) as [[t v]|] eqn:E; [|reflexivity].
  exfalso. apply find_some in E as [Hin E]. apply str_eqb_eq in E.
  pose proof roman_texts_letters as HR. rewrite forallb_forall in HR.
  specialize (HR _ Hin). simpl in HR. apply andb_true_iff in HR as [HL HN].
  rewrite forallb_forall in HL.
  destruct p as [|c p]; [congruence|].
  destruct t as [|x t]; [simpl in HN; discriminate|].
  simpl in E. injection E as -> _. apply Hp. apply (mem_chr_In c roman_letters). apply HL. now left.
Qed.

Lemma prefix_loop_app f : forall s p r,
  (List.length s <= f)%nat -> not_roman_head p ->
  snd (roman_prefix_loop f s r) = [] ->
  roman_prefix_loop (f + List.length p) (s ++ p) r = (fst (roman_prefix_loop f s r), p).
Proof.
  induction f as [|f IH]; intros s p r Hf Hp Hend.
  - destruct s; [|simpl in Hf; lia]. simpl.
    destruct (List.length p) eqn:L; [destruct p; [reflexivity|discriminate]|].
    rewrite prefix_loop_eq. destruct p as [|c p']; [discriminate|].
    rewrite roman_find_nil_head by (auto; discriminate). reflexivity.
  - destruct s as [|c s'].
    + cbn [app]. destruct p as [|d p']; [reflexivity|].
      cbn [plus]. rewrite prefix_loop_eq.
      rewrite roman_find_nil_head by (auto; discriminate). reflexivity.
    + set (s := c :: s') in *. cbn [plus].
      assert (Hs : s <> []) by discriminate.
      rewrite (prefix_loop_ne _ (s ++ p)) by (unfold s; discriminate).
      rewrite prefix_loop_ne in Hend |- * by assumption.
      rewrite roman_find_app by assumption.
      destruct (roman_find s) as [[t v]|] eqn:E; [|discriminate Hend].
      apply roman_find_len in E as (L & Hpre & _).
      assert (Hlen : (List.length t <= List.length s)%nat).
      { rewrite <- Hpre. rewrite firstn_length. lia. }
      rewrite skipn_app. replace (List.length t - List.length s)%nat with O by lia.
      rewrite skipn_O. apply IH; auto. rewrite skipn_length. lia.
Qed.

Lemma prefix_loop_r f : forall s r r0,
  roman_prefix_loop f s (r + r0) =
  (fst (roman_prefix_loop f s r) + r0, snd (roman_prefix_loop f s r)).
Proof.
  induction f as [|f IH]; intros s r r0; [reflexivity|].
  rewrite !prefix_loop_eq. destruct s as [|c s]; [reflexivity|].
  destruct (roman_find (c :: s)) as [[t v]|]; [|reflexivity].
  replace (r + r0 + v) with (r + v + r0) by lia. apply IH.
Qed.

Lemma roman_parse_small :
  forallb (fun i => let '(v, s) := roman_prefix_loop (List.length (roman i)) (roman i) 0 in
                    (v =? i) && str_eqb s []) (z_range 1000) = true.
Proof. vm_compute. reflexivity. Qed.

Lemma roman_parse n : forall i, (Z.to_nat i <= n)%nat -> 0 <= i ->
  roman_prefix_loop (List.length (roman i)) (roman i) 0 = (i, []).
Proof.
  induction n as [|n IH]; intros i Hn Hi.
  - replace i with 0 by lia. reflexivity.
  - destruct (Z.ltb_spec i 1000) as [Hlt|Hge].
    + pose proof roman_parse_small as HS. rewrite forallb_forall in HS.
      specialize (HS i (z_range_In 1000 i ltac:(lia))).
      destruct (roman_prefix_loop _ _ _) as [v s]. apply andb_true_iff in HS as [H1 H2].
      apply str_eqb_eq in H2. apply Z.eqb_eq in H1. f_equal; assumption.
    + rewrite (roman_step i) by lia. cbn [List.length]. rewrite prefix_loop_eq.
      replace (roman_find (77%N :: roman (i - 1000))) with (Some (u8 "M", 1000)) by reflexivity.
      cbn [List.length skipn]. rewrite prefix_loop_r, IH by lia. simpl. f_equal. lia.
Qed.

Lemma roman_nonempty i : 1 <= i -> roman i <> [].
Proof.
  intros H E. pose proof (roman_parse (Z.to_nat i) i ltac:(lia) ltac:(lia)) as P.
  rewrite E in P. simpl in P. injection P as P. lia.
Qed.

Lemma with_postfix_roman i p : 1 <= i -> not_roman_head p ->
  text_to_int_roman_with_postfix (roman i ++ p) = Ok (i, p).
Proof.
  intros Hi Hp. unfold text_to_int_roman_with_postfix. rewrite app_length.
  rewrite prefix_loop_app; auto.
  - rewrite (roman_parse (Z.to_nat i)) by lia. simpl. replace (i =? 0) with false by lia. reflexivity.
  - rewrite (roman_parse (Z.to_nat i)) by lia. reflexivity.
Qed.

Lemma text_to_int_roman_roman i : 1 <= i -> text_to_int_roman (roman i) = Ok i.
Proof.
  intros Hi. unfold text_to_int_roman.
  rewrite <- (app_nil_r (roman i)), with_postfix_roman; simpl; auto.
Qed.

(* every string accepted by text_to_int_roman consists of roman letters *)
Lemma prefix_loop_letters f : forall s r, (List.length s <= f)%nat ->
  exists a, s = a ++ snd (roman_prefix_loop f s r) /\ Forall (fun c => In c roman_letters) a.
Proof.
  induction f as [|f IH]; intros s r Hf.
  - exists []. split; [reflexivity | constructor].
  - rewrite prefix_loop_eq. destruct s as [|c s']; [exists []; split; [reflexivity|constructor]|].
    set (s := c :: s') in *. destruct (roman_find s) as [[t v]|] eqn:E.
    + assert (E' := E). apply roman_find_len in E as (L & Hpre & _).
      destruct (IH (skipn (List.length t) s) (r + v)) as (a & Ha & Hall).
      { rewrite skipn_length. lia. }
      exists (t ++ a). split.
      * rewrite <- app_assoc, <- Ha. rewrite <- Hpre at 1. now rewrite firstn_skipn.
      * apply Forall_app; split; [|exact Hall].
        apply find_some in E' as [Hin _].
        pose proof roman_texts_letters as HR. rewrite forallb_forall in HR.
        specialize (HR _ Hin). simpl in HR. apply andb_true_iff in HR as [HL _].
        rewrite forallb_forall in HL. apply Forall_forall. intros x Hx. apply (mem_chr_In x roman_letters), HL, Hx.
    + exists []. split; [reflexivity|constructor].
Qed.

(* the loop stops only at a character that is not a roman letter *)
Lemma roman_find_letter c s : In c roman_letters -> roman_find (c :: s) <> None.
Proof.
  intros Hc E. assert (S : forallb (fun c => existsb (fun '(t, _) => str_eqb t [c]) roman_numerals) roman_letters = true) by reflexivity.
  rewrite forallb_forall in S. specialize (S c Hc). apply existsb_exists in S as ([t v] & Hin & Ht).
  apply str_eqb_eq in Ht. subst t. pose proof (find_none _ _ E _ Hin) as F. cbn [List.length firstn] in F.
  now rewrite str_eqb_refl in F.
Qed.
Lemma prefix_loop_stop f : forall s r, (List.length s <= f)%nat -> not_roman_head (snd (roman_prefix_loop f s r)).
Proof.
  induction f as [|f IH]; intros s r Hf.
  - destruct s; [exact I|cbn in Hf; lia].
  - rewrite prefix_loop_eq. destruct s as [|c s']; [exact I|]. set (s := c :: s') in *.
    destruct (roman_find s) as [[t v]|] eqn:E.
    + apply IH. apply roman_find_len in E as (L & Hpre & _). rewrite skipn_length. lia.
    + cbn [snd]. unfold s, not_roman_head. intros Hc. now apply (roman_find_letter c s') in Hc.
Qed.
Lemma prefix_loop_value f : forall s r, r <= fst (roman_prefix_loop f s r).
Proof.
  induction f as [|f IH]; intros s r; [apply Z.le_refl|]. rewrite prefix_loop_eq.
  destruct s as [|c s']; [apply Z.le_refl|]. destruct (roman_find (c :: s')) as [[t v]|] eqn:E; [|apply Z.le_refl].
  apply find_some in E as [Hin _].
  assert (S : forallb (fun '(_, v) => 0 <? v) roman_numerals = true) by reflexivity.
  rewrite forallb_forall in S. specialize (S _ Hin). cbn in S. specialize (IH (skipn (List.length t) (c :: s')) (r + v)). lia.
Qed.
Lemma with_postfix_spec s :
  exists a p : pystr, s = (a ++ p)%list /\ Forall (fun c => In c roman_letters) a /\ (not_roman_head p) /\
    match a with
    | [] => text_to_int_roman_with_postfix s = Err ValueError
    | _ => exists v, 1 <= v /\ text_to_int_roman_with_postfix s = Ok (v, p)
    end.
Proof.
  destruct (prefix_loop_letters (List.length s) s 0 (Nat.le_refl _)) as (a & Ha & Hl).
  pose proof (prefix_loop_stop (List.length s) s 0 (Nat.le_refl _)) as Hs.
  exists a, (snd (roman_prefix_loop (List.length s) s 0)). repeat split; auto.
  unfold text_to_int_roman_with_postfix. destruct (roman_prefix_loop (List.length s) s 0) as [v p] eqn:E. cbn [snd] in *.
  destruct a as [|c a].
  - cbn in Ha. subst p. destruct s as [|c s].
    + cbn in E. injection E as <-. reflexivity.
    + cbn [List.length] in E. rewrite prefix_loop_eq in E. destruct (roman_find (c :: s)) as [[t v']|] eqn:F.
      * exfalso. apply roman_find_len in F as (L & Hpre & _). 
        pose proof (prefix_loop_letters (List.length s) (skipn (List.length t) (c :: s)) (0 + v')) as X.
        rewrite E in X. destruct X as (b & Hb & _); [rewrite skipn_length; cbn [List.length]; lia|]. cbn [snd] in Hb.
        apply (f_equal (@List.length N)) in Hb. rewrite skipn_length, app_length in Hb. cbn [List.length] in Hb. lia.
      * injection E as <-. reflexivity.
  - exists v. assert (1 <= v); [|split; [assumption|now replace (v =? 0) with false by lia]].
    subst s. cbn [app List.length] in E. rewrite prefix_loop_eq in E. 
    destruct (roman_find (c :: a ++ p)) as [[t v']|] eqn:F.
    + assert (F' := F). apply find_some in F' as [Hin _].
      assert (S : forallb (fun '(_, v) => 1 <=? v) roman_numerals = true) by reflexivity.
      rewrite forallb_forall in S. specialize (S _ Hin). cbn in S.
      pose proof (prefix_loop_value (List.length (a ++ p)) (skipn (List.length t) (c :: a ++ p)) (0 + v')) as V.
      rewrite E in V. cbn [fst] in V. lia.
    + inversion Hl; subst. exfalso. now apply (roman_find_letter c (a ++ p)) in F.
Qed.
Lemma text_to_int_roman_accepts s :
  ((exists v, text_to_int_roman s = Ok v) <-> s <> [] /\ Forall (fun c => In c roman_letters) s) /\
  (forall e, text_to_int_roman s = Err e -> e = ValueError) /\
  (forall v, text_to_int_roman s = Ok v -> 1 <= v).
Proof.
  destruct (with_postfix_spec s) as (a & p & -> & Hl & Hp & M). unfold text_to_int_roman.
  destruct a as [|c a].
  - cbn [app] in *. rewrite M. cbn [bind]. split; [split|split; congruence].
    + intros [v H]; discriminate.
    + intros [H1 H2]. destruct p as [|x p]; [congruence|]. inversion H2; subst. contradiction.
  - destruct M as (v & Hv & ->). cbn [bind]. destruct p as [|x p].
    + rewrite app_nil_r. split; [split; [intros _; split; [discriminate|exact Hl]|eauto]|split; congruence].
    + split; [split|split; congruence].
      * intros [w H]; discriminate.
      * intros [_ H]. apply Forall_app in H as [_ H]. inversion H; subst. contradiction.
Qed.

(** C02 *)
Lemma is_ascii_digit_range c : is_ascii_digit c = true <-> (48 <= c <= 57)%N.
Proof. unfold is_ascii_digit. lia. Qed.

Lemma forallb_ascii s : ascii_digits s -> forallb is_ascii_digit s = true.
Proof.
  intros H. apply forallb_forall. intros x Hx. apply is_ascii_digit_range.
  unfold ascii_digits in H. rewrite Forall_forall in H. auto.
Qed.

Lemma number_finder_dec n p :
  match p with [] => True | c :: _ => is_ascii_digit c = false end ->
  ~ In 10%N p ->
  number_finder (dec_N n ++ p) = Some (dec_N n, p).
Proof.
  intros Hh Hnl. unfold number_finder.
  rewrite take_while_app; [| apply forallb_ascii, dec_N_digits | exact Hh].
  destruct (dec_N n) as [|c t] eqn:E; [now apply dec_N_nonempty in E|].
  rewrite <- E. rewrite skipn_app, skipn_all, Nat.sub_diag, skipn_O. simpl.
  rewrite take_while_all; [reflexivity|].
  apply forallb_forall. intros x Hx. unfold not_newline.
  destruct (N.eqb_spec x 10); [subst; contradiction | reflexivity].
Qed.

Lemma arabic_to_roman_spec n p :
  1 <= n -> match p with [] => True | c :: _ => is_ascii_digit c = false end ->
  ~ In 10%N p ->
  arabic_to_roman_with_postfix (str_of_int n ++ p) = Ok (roman n ++ p).
Proof.
  intros Hn Hh Hnl. unfold arabic_to_roman_with_postfix.
  rewrite str_of_int_nonneg by lia. rewrite number_finder_dec by assumption.
  rewrite py_int_dec. cbn [bind]. rewrite Z2N.id by lia.
  now rewrite int_to_text_roman_pos by lia.
Qed.

Lemma roman_to_arabic_spec n p :
  1 <= n -> not_roman_head p ->
  roman_to_arabic_with_postfix (roman n ++ p) = Ok (str_of_int n ++ p).
Proof.
  intros Hn Hp. unfold roman_to_arabic_with_postfix. now rewrite with_postfix_roman.
Qed.

(** * Hungarian ordinals *)
Definition ordinal (i : Z) : pystr := nth (Z.to_nat (i - 1)) hungarian_ordinals [].

Lemma ordinals_sweep :
  forallb (fun i => opt_eqb str_eqb (int_to_text_dict (i + 1)) (Some (ordinal (i + 1)))
    && opt_eqb Z.eqb (text_to_int_dict (ordinal (i + 1))) (Some (i + 1))
    && str_eqb (str_lower (ordinal (i + 1))) (ordinal (i + 1))
    && opt_eqb Z.eqb (text_to_int_dict (str_lower (str_upper (ordinal (i + 1))))) (Some (i + 1)))
    (z_range 100) = true.
Proof. vm_compute. reflexivity. Qed.

Lemma ordinal_facts i : 1 <= i <= 100 ->
  int_to_text_dict i = Some (ordinal i) /\ text_to_int_dict (ordinal i) = Some i /\
  str_lower (ordinal i) = ordinal i /\ text_to_int_dict (str_lower (str_upper (ordinal i))) = Some i.
Proof.
  intros H. pose proof ordinals_sweep as S. rewrite forallb_forall in S.
  specialize (S (i - 1) (z_range_In 100 (i - 1) ltac:(lia))).
  cbv beta in S. replace (i - 1 + 1) with i in S by lia.
  apply andb_true_iff in S as [S S4]. apply andb_true_iff in S as [S S3].
  apply andb_true_iff in S as [S1 S2].
  repeat split.
  - now apply opt_str_eqb_eq.
  - apply (opt_eqb_eq Z.eqb Z.eqb_eq); exact S2.
  - now apply str_eqb_eq.
  - apply (opt_eqb_eq Z.eqb Z.eqb_eq); exact S4.
Qed.

Lemma assignments_ok :
  forallb (fun '(t, v) => (1 <=? v) && (v <=? 100) && str_eqb t (ordinal v)) ordinal_assignments = true.
Proof. vm_compute. reflexivity. Qed.

Lemma text_dict_sound s v : text_to_int_dict s = Some v -> 1 <= v <= 100 /\ s = ordinal v.
Proof.
  unfold text_to_int_dict. destruct (List.find _ _) as [[t w]|] eqn:E; simpl; [|discriminate].
  intros [= ->]. apply find_some in E as [Hin E]. simpl in E. apply str_eqb_eq in E; subst t.
  rewrite <- in_rev in Hin. pose proof assignments_ok as A. rewrite forallb_forall in A.
  specialize (A _ Hin). simpl in A. apply andb_true_iff in A as [A1 A2].
  apply str_eqb_eq in A2. split; [lia | exact A2].
Qed.

Lemma int_dict_sound i t : int_to_text_dict i = Some t -> 1 <= i <= 100.
Proof.
  unfold int_to_text_dict. destruct (List.find _ _) as [[w v]|] eqn:E; simpl; [|discriminate].
  intros [= ->]. apply find_some in E as [Hin E]. simpl in E. apply Z.eqb_eq in E; subst v.
  rewrite <- in_rev in Hin. pose proof assignments_ok as A. rewrite forallb_forall in A.
  specialize (A _ Hin). simpl in A. lia.
Qed.

Lemma int_to_text_hun_in i : 1 <= i <= 100 -> int_to_text_hun i = Ok (ordinal i).
Proof. intros H. unfold int_to_text_hun. now rewrite (proj1 (ordinal_facts i H)). Qed.

Lemma int_to_text_hun_out i : ~ (1 <= i <= 100) -> int_to_text_hun i = Err ValueError.
Proof.
  intros H. unfold int_to_text_hun. destruct (int_to_text_dict i) eqn:E; [|reflexivity].
  apply int_dict_sound in E. lia.
Qed.

Lemma text_to_int_hun_ordinal i s : 1 <= i <= 100 -> str_lower s = ordinal i ->
  text_to_int_hun s = Ok i.
Proof.
  intros H E. unfold text_to_int_hun. rewrite E.
  now rewrite (proj1 (proj2 (ordinal_facts i H))).
Qed.

Lemma text_to_int_hun_upper i : 1 <= i <= 100 -> text_to_int_hun (str_upper (ordinal i)) = Ok i.
Proof.
  intros H. unfold text_to_int_hun. now rewrite (proj2 (proj2 (proj2 (ordinal_facts i H)))).
Qed.

Lemma text_to_int_hun_cases s :
  (exists i, 1 <= i <= 100 /\ str_lower s = ordinal i /\ text_to_int_hun s = Ok i) \/
  ((forall i, 1 <= i <= 100 -> str_lower s <> ordinal i) /\ text_to_int_hun s = Err ValueError).
Proof.
  unfold text_to_int_hun. destruct (text_to_int_dict (str_lower s)) as [v|] eqn:E.
  - left. exists v. apply text_dict_sound in E as [H1 H2]. auto.
  - right. split; [|reflexivity]. intros i Hi Es. rewrite Es in E.
    rewrite (proj1 (proj2 (ordinal_facts i Hi))) in E. discriminate.
Qed.

Lemma ordinal_inj i j : 1 <= i <= 100 -> 1 <= j <= 100 -> ordinal i = ordinal j -> i = j.
Proof.
  intros Hi Hj E. pose proof (proj1 (proj2 (ordinal_facts i Hi))) as H1.
  rewrite E, (proj1 (proj2 (ordinal_facts j Hj))) in H1. congruence.
Qed.

(** * Letters *)
Definition follows_inb (alphabet : list pystr) (a b : pystr) : bool :=
  existsb (fun i =>
    existsb (fun k =>
      match skipn i alphabet with
      | x :: r => str_eqb x a && forallb (fun d => (List.length d =? 2)%nat) (firstn k r)
                  && match skipn k r with y :: _ => str_eqb y b | [] => false end
      | [] => false
      end) (seq 0 (List.length alphabet))) (seq 0 (List.length alphabet)).

Lemma follows_inb_spec al a b : follows_inb al a b = true <-> follows_in al a b.
Proof.
  unfold follows_inb, follows_in. rewrite existsb_exists. split.
  - intros (i & Hi & H). apply existsb_exists in H as (k & Hk & H).
    destruct (skipn i al) as [|x r] eqn:E; [discriminate|].
    apply andb_true_iff in H as [H H3]. apply andb_true_iff in H as [H1 H2].
    destruct (skipn k r) as [|y q] eqn:E2; [discriminate|].
    apply str_eqb_eq in H1, H3. subst x y.
    exists (firstn i al), (firstn k r), q. split.
    + rewrite <- E2, firstn_skipn, <- E, firstn_skipn. reflexivity.
    + apply Forall_forall. rewrite forallb_forall in H2. intros d Hd. apply H2 in Hd. now apply Nat.eqb_eq.
  - intros (before & between & after & E & H). exists (List.length before). split.
    + apply in_seq. rewrite E, app_length. simpl. lia.
    + apply existsb_exists. exists (List.length between). split.
      * apply in_seq. rewrite E, app_length. simpl. rewrite app_length. simpl. lia.
      * rewrite E, skipn_app, skipn_all, Nat.sub_diag, skipn_O. simpl.
        rewrite str_eqb_refl. rewrite firstn_app, firstn_all, Nat.sub_diag, firstn_O, app_nil_r.
        rewrite skipn_app, skipn_all, Nat.sub_diag, skipn_O. simpl.
        rewrite str_eqb_refl, andb_true_r. simpl. apply forallb_forall.
        intros d Hd. rewrite Forall_forall in H. apply Nat.eqb_eq. auto.
Qed.

Lemma letters_sweep (al : list pystr) :
  forallb (fun a => forallb (fun b => Bool.eqb (is_next_letter_hun a b) (follows_inb al a b)) al) al = true ->
  forall a b, In a al -> In b al -> is_next_letter_hun a b = true <-> follows_in al a b.
Proof.
  intros H a b Ha Hb. rewrite forallb_forall in H. specialize (H a Ha).
  rewrite forallb_forall in H. specialize (H b Hb). apply eqb_prop in H.
  rewrite H. apply follows_inb_spec.
Qed.

Lemma letters_lower a b : In a list_alphabet -> In b list_alphabet ->
  is_next_letter_hun a b = true <-> follows_in list_alphabet a b.
Proof. apply letters_sweep. vm_compute. reflexivity. Qed.

Lemma letters_upper a b : In a list_alphabet_upper -> In b list_alphabet_upper ->
  is_next_letter_hun a b = true <-> follows_in list_alphabet_upper a b.
Proof. apply letters_sweep. vm_compute. reflexivity. Qed.

Lemma letters_other a b : is_next_letter_hun a b = true ->
  (In a list_alphabet /\ In b list_alphabet) \/
  (In a list_alphabet_upper /\ In b list_alphabet_upper) \/
  (exists c, a = [c] /\ b = [(c + 1)%N]).
Proof.
  unfold is_next_letter_hun. destruct (existsb _ _) eqn:E.
  - intros _. apply existsb_exists in E as ((x, y) & Hin & E). apply andb_true_iff in E as [E1 E2].
    apply str_eqb_eq in E1, E2. subst x y.
    assert (S : forallb (fun '(x, y) => (mem_str x list_alphabet && mem_str y list_alphabet)
       || (mem_str x list_alphabet_upper && mem_str y list_alphabet_upper)) special_next_letter_pairs = true)
      by reflexivity.
    rewrite forallb_forall in S. specialize (S _ Hin). cbv beta iota in S.
    apply orb_true_iff in S as [S|S]; apply andb_true_iff in S as [S1 S2];
      apply mem_str_In in S1, S2; auto.
  - destruct a as [|x [|? ?]]; try discriminate. destruct b as [|y [|? ?]]; try discriminate.
    intros H. right; right. exists x. split; [reflexivity|]. f_equal. lia.
Qed.

Lemma letters_lt a b : is_next_letter_hun a b = true -> str_ltb a b = true.
Proof.
  unfold is_next_letter_hun. destruct (existsb _ _) eqn:E.
  - intros _. apply existsb_exists in E as ((x, y) & Hin & E). apply andb_true_iff in E as [E1 E2].
    apply str_eqb_eq in E1, E2. subst x y.
    assert (S : forallb (fun '(x, y) => str_ltb x y) special_next_letter_pairs = true) by reflexivity.
    rewrite forallb_forall in S. exact (S _ Hin).
  - destruct a as [|x [|? ?]]; try discriminate. destruct b as [|y [|? ?]]; try discriminate.
    intros H. simpl. destruct (N.eqb_spec x y); lia.
Qed.

(** * Statements used by P_Num.v *)
Lemma postfix_roundtrip n postfix :
  1 <= n ->
  (forall c t, postfix = c :: t -> ~ (48 <= c <= 57)%N /\ ~ In c roman_letters) ->
  ~ In 10%N postfix ->
  arabic_to_roman_with_postfix (str_of_int n ++ postfix) = Ok (roman n ++ postfix) /\
  roman_to_arabic_with_postfix (roman n ++ postfix) = Ok (str_of_int n ++ postfix).
Proof.
  intros Hn Hp Hnl. split.
  - apply arabic_to_roman_spec; auto. destruct postfix as [|c t]; [exact I|].
    destruct (Hp c t eq_refl) as [H _]. destruct (is_ascii_digit c) eqn:E; [|reflexivity].
    apply is_ascii_digit_range in E. contradiction.
  - apply roman_to_arabic_spec; auto. destruct postfix as [|c t]; [exact I|].
    apply (Hp c t eq_refl).
Qed.

Lemma postfix_unconditional_refuted :
  (exists s r t, arabic_to_roman_with_postfix s = Ok r /\ roman_to_arabic_with_postfix r = Ok t /\
     t <> s /\ s = u8 "1V") /\
  (exists s r t, arabic_to_roman_with_postfix s = Ok r /\ roman_to_arabic_with_postfix r = Ok t /\
     t <> s /\ In 10%N s) /\
  (exists s r, arabic_to_roman_with_postfix s = Ok r /\
     roman_to_arabic_with_postfix r = Err ValueError /\ s = u8 "0").
Proof.
  split; [|split].
  - exists (u8 "1V"), (u8 "IV"), (u8 "4"). repeat split; try reflexivity. discriminate.
  - exists ([49; 10; 65]%N), (u8 "I"), (u8 "1"). repeat split; try reflexivity; [discriminate|].
    simpl; auto.
  - exists (u8 "0"), (u8 ""). repeat split; reflexivity.
Qed.

Lemma text_to_int_hun_iff s v :
  text_to_int_hun s = Ok v <-> (1 <= v <= 100 /\ int_to_text_hun v = Ok (str_lower s)).
Proof.
  split.
  - intros H. destruct (text_to_int_hun_cases s) as [(i & Hi & E & Ht)|[_ Ht]]; [|congruence].
    rewrite Ht in H. injection H as ->. split; [assumption|].
    rewrite E. now apply int_to_text_hun_in.
  - intros [Hv H]. rewrite int_to_text_hun_in in H by assumption. injection H as H.
    now apply text_to_int_hun_ordinal.
Qed.

Lemma text_to_int_hun_reject s :
  (forall v, text_to_int_hun s <> Ok v) -> text_to_int_hun s = Err ValueError.
Proof.
  intros H. destruct (text_to_int_hun_cases s) as [(i & _ & _ & Ht)|[_ Ht]]; [|assumption].
  now apply H in Ht.
Qed.

Lemma ordinal_inverse i s : int_to_text_hun i = Ok s ->
  text_to_int_hun s = Ok i /\ text_to_int_hun (str_upper s) = Ok i.
Proof.
  intros H. assert (Hi : 1 <= i <= 100).
  { destruct (Z_le_dec 1 i); destruct (Z_le_dec i 100); try lia;
      rewrite int_to_text_hun_out in H by lia; discriminate. }
  rewrite int_to_text_hun_in in H by assumption. injection H as <-. split.
  - apply text_to_int_hun_ordinal; auto. apply (ordinal_facts i Hi).
  - now apply text_to_int_hun_upper.
Qed.

Lemma ordinal_injective i j s :
  int_to_text_hun i = Ok s -> int_to_text_hun j = Ok s -> i = j.
Proof. intros H1 H2. apply ordinal_inverse in H1 as [H1 _], H2 as [H2 _]. congruence. Qed.

Lemma letters_both alphabet :
  alphabet = list_alphabet \/ alphabet = list_alphabet_upper ->
  forall a b, In a alphabet -> In b alphabet ->
  is_next_letter_hun a b = true <-> follows_in alphabet a b.
Proof. intros [-> | ->]; [apply letters_lower | apply letters_upper]. Qed.
