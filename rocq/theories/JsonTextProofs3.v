(* What is read does not change when text is appended, so texts that are cut short are not read. *)
From Coq Require Import Lia Floats.SpecFloat.
From Coq Require Import ZifyBool ZifyNat ZifyN.
From Verif Require Import PyBase PyBaseFacts LineModel D2oModel D2oSpec D2oProofs JsonTextModel JsonTextSpec JsonTextProofs.
Local Open Scope Z_scope.

Lemma drop_app {A} (f : A -> bool) s q : drop_while f s <> [] -> drop_while f (s ++ q) = drop_while f s ++ q /\ take_while f (s ++ q) = take_while f s.
Proof.
  induction s as [|c s IH]; cbn [app drop_while take_while]; [congruence|]. destruct (f c); [|split; reflexivity].
  intros H. destruct (IH H) as [E1 E2]. rewrite E1, E2. split; reflexivity.
Qed.
Lemma skip_app s q c t : skip_space s = c :: t -> skip_space (s ++ q) = c :: t ++ q.
Proof. intros H. unfold skip_space in *. destruct (drop_app json_space s q) as [E _]; [rewrite H; discriminate|]. rewrite E, H. reflexivity. Qed.
Lemma hex4_app s q u r : read_hex4 s = Some (u, r) -> read_hex4 (s ++ q) = Some (u, r ++ q).
Proof.
  destruct s as [|a [|b [|c [|d t]]]]; try discriminate. cbn [app read_hex4].
  destruct (hex_value a), (hex_value b), (hex_value c), (hex_value d); try discriminate. intros E. injection E as <- <-. reflexivity.
Qed.
Lemma escape_app s q c r x f : read_escape s = Ok (c, r) -> scan_string f r = Ok x -> read_escape (s ++ q) = Ok (c, r ++ q).
Proof.
  intros H Hr. destruct s as [|e t]; [discriminate|]. cbn [app]. unfold read_escape in *. destruct (e =? 117)%N.
  2:{ destruct (single_escape e); [|discriminate]. injection H as <- <-. reflexivity. }
  destruct (read_hex4 t) as [[u r0]|] eqn:E; [|discriminate]. rewrite (hex4_app _ q _ _ E).
  destruct ((55296 <=? u)%N && (u <=? 56319)%N).
  2:{ injection H as <- <-. reflexivity. }
  destruct r0 as [|b [|v r']].
  - injection H as <- <-. exfalso. destruct f; discriminate Hr.
  - injection H as <- <-. cbn [app]. destruct f as [|f]; [discriminate|]. cbn [scan_string] in Hr.
    destruct (b =? 34)%N eqn:E1; [apply N.eqb_eq in E1; subst b; change (34 =? 92)%N with false; cbn [andb]; destruct q; reflexivity|].
    destruct (b =? 92)%N eqn:E2; [discriminate Hr|]. destruct q; reflexivity.
  - cbn [app]. destruct ((b =? 92)%N && (v =? 117)%N); [|injection H as <- <-; reflexivity].
    destruct (read_hex4 r') as [[u2 r2]|] eqn:E2; [|discriminate]. rewrite (hex4_app _ q _ _ E2).
    destruct ((56320 <=? u2)%N && (u2 <=? 57343)%N); injection H as <- <-; reflexivity.
Qed.
Lemma string_app f : forall s q x r f', scan_string f s = Ok (x, r) -> (f <= f')%nat -> scan_string f' (s ++ q) = Ok (x, r ++ q).
Proof.
  induction f as [|f IH]; intros s q x r f' H L; [discriminate|]. destruct f' as [|f']; [lia|]. destruct s as [|c t]; [discriminate|]. cbn [app scan_string] in *.
  destruct (c =? 34)%N; [injection H as <- <-; reflexivity|]. destruct (c =? 92)%N.
  - apply bind_ok in H as ([e r0] & E & H). cbn [fst snd] in H. apply bind_ok in H as ([y r1] & E1 & H). injection H as <- <-.
    rewrite (escape_app _ q _ _ _ _ E E1). cbn [bind fst snd]. rewrite (IH _ q _ _ f' E1 ltac:(lia)). reflexivity.
  - destruct (c <? 32)%N; [discriminate|]. apply bind_ok in H as ([y r1] & E1 & H). injection H as <- <-. rewrite (IH _ q _ _ f' E1 ltac:(lia)). reflexivity.
Qed.
Definition closed (r : pystr) : Prop := exists c t, r = c :: t /\ delimiter c.
Lemma closed_skip r c t : skip_space r = c :: t -> delimiter c -> closed r.
Proof.
  unfold skip_space. destruct r as [|d r]; [discriminate|]. cbn [drop_while]. intros H D. exists d, r. split; [reflexivity|].
  destruct (json_space d) eqn:E; [unfold json_space in E; unfold delimiter; cbn [In]; lia|]. injection H as -> _. exact D.
Qed.
Lemma digits_app s q : snd (digits s) <> [] -> digits (s ++ q) = (fst (digits s), snd (digits s) ++ q).
Proof. unfold digits. cbn [fst snd]. intros H. destruct (drop_app is_digit s q H) as [-> ->]. reflexivity. Qed.
Lemma integer_app s q i r : scan_integer s = Some (i, r) -> r <> [] -> scan_integer (s ++ q) = Some (i, r ++ q).
Proof.
  unfold scan_integer. destruct s as [|c s]; [discriminate|]. cbn [app]. destruct (c =? 45)%N.
  - destruct s as [|d s]; [discriminate|]. cbn [app]. destruct (d =? 48)%N; [intros E _; injection E as <- <-; reflexivity|].
    destruct (is_digit d); [|discriminate]. intros E Hr. injection E as <- <-. change (d :: s ++ q) with ((d :: s) ++ q). rewrite digits_app by exact Hr. reflexivity.
  - destruct (c =? 48)%N; [intros E _; injection E as <- <-; reflexivity|].
    destruct (is_digit c); [|discriminate]. intros E Hr. injection E as <- <-. change (c :: s ++ q) with ((c :: s) ++ q). rewrite digits_app by exact Hr. reflexivity.
Qed.
Lemma fraction_app s q f r : scan_fraction s = (f, r) -> r <> [] -> (forall t, f = [] -> r <> 46%N :: t) -> scan_fraction (s ++ q) = (f, r ++ q).
Proof.
  unfold scan_fraction. destruct s as [|c s]; [intros E Hr; congruence|]. cbn [app]. destruct (c =? 46)%N eqn:E; cbn [andb]; [|intros H _ _; injection H as <- <-; reflexivity].
  apply N.eqb_eq in E. subst c. destruct (str_eqb (fst (digits s)) []) eqn:E; cbn [negb]; intros H Hr Hd; injection H as <- <-; [exfalso; exact (Hd s eq_refl eq_refl)|].
  rewrite digits_app by exact Hr. cbn [fst snd]. rewrite E. reflexivity.
Qed.
Lemma exponent_app s q e r : scan_exponent s = (e, r) -> r <> [] -> (forall c t, e = [] -> r = c :: t -> c <> 101%N /\ c <> 69%N) -> scan_exponent (s ++ q) = (e, r ++ q).
Proof.
  unfold scan_exponent. destruct s as [|c s]; [intros E Hr; congruence|]. cbn [app]. destruct ((c =? 101)%N || (c =? 69)%N) eqn:E; [|intros H _ _; injection H as <- <-; reflexivity].
  assert (G : forall sign u, (if negb (str_eqb (fst (digits u)) []) then ([c] ++ sign ++ fst (digits u), snd (digits u)) else ([], c :: s)) = (e, r) -> r <> [] ->
    (forall c t, e = [] -> r = c :: t -> c <> 101%N /\ c <> 69%N) ->
    (if negb (str_eqb (fst (digits (u ++ q))) []) then ([c] ++ sign ++ fst (digits (u ++ q)), snd (digits (u ++ q))) else ([], c :: s ++ q)) = (e, r ++ q)).
  { intros sign u H Hr Hd. destruct (negb (str_eqb (fst (digits u)) [])) eqn:En; injection H as <- <-; [|exfalso; destruct (Hd c s eq_refl eq_refl); lia].
    rewrite digits_app by exact Hr. cbn [fst snd]. rewrite En. reflexivity. }
  destruct s as [|d s].
  - intros H Hr Hd. exfalso. cbn in H. injection H as <- <-. destruct (Hd c [] eq_refl eq_refl); lia.
  - cbn [app]. destruct ((d =? 43)%N || (d =? 45)%N); intros H Hr Hd; [exact (G [d] s H Hr Hd)|exact (G [] (d :: s) H Hr Hd)].
Qed.
Lemma fraction_rest s f r : scan_fraction s = (f, r) -> s = f ++ r.
Proof.
  unfold scan_fraction. destruct s as [|c s]; [intros E; injection E as <- <-; reflexivity|]. destruct ((c =? 46)%N && negb (str_eqb (fst (digits s)) [])) eqn:E; intros H; injection H as <- <-; [|reflexivity].
  apply andb_true_iff in E as [E _]. apply N.eqb_eq in E. subst c. cbn [app]. unfold digits. cbn [fst snd]. rewrite take_drop_while. reflexivity.
Qed.
Lemma exponent_rest s f r : scan_exponent s = (f, r) -> s = f ++ r.
Proof.
  unfold scan_exponent. destruct s as [|c s]; [intros E; injection E as <- <-; reflexivity|]. destruct ((c =? 101)%N || (c =? 69)%N); [|intros H; injection H as <- <-; reflexivity].
  destruct s as [|d s]; [intros H; cbn in H; injection H as <- <-; reflexivity|].
  destruct ((d =? 43)%N || (d =? 45)%N).
  - destruct (negb (str_eqb (fst (digits s)) [])); intros H; injection H as <- <-; [|reflexivity]. cbn [app]. unfold digits. cbn [fst snd]. rewrite take_drop_while. reflexivity.
  - destruct (negb (str_eqb (fst (digits (d :: s))) [])); intros H; injection H as <- <-; [|reflexivity]. cbn [app]. f_equal. symmetry. exact (take_drop_while is_digit (d :: s)).
Qed.
Lemma number_app io s q v r : scan_number io s = Ok (v, r) -> closed r -> scan_number io (s ++ q) = Ok (v, r ++ q).
Proof.
  intros H (c & t & -> & D). unfold delimiter in D. cbn [In] in D. unfold scan_number in *. destruct (scan_integer s) as [[i r0]|] eqn:Ei; [|discriminate].
  destruct (scan_fraction r0) as [f r1] eqn:Ef. destruct (scan_exponent r1) as [e r2] eqn:Ee.
  assert (Er : r2 = c :: t) by (destruct (f ++ e); [apply bind_ok in H as (n & _ & H); injection H as _ ->; reflexivity|injection H as _ ->; reflexivity]). subst r2.
  pose proof (exponent_rest _ _ _ Ee) as X1. pose proof (fraction_rest _ _ _ Ef) as X0.
  assert (N1 : r1 <> []) by (rewrite X1; destruct e; discriminate). assert (N0 : r0 <> []) by (rewrite X0; destruct f; [exact N1|discriminate]).
  assert (Dot : forall t', f = [] -> r1 <> 46%N :: t').
  { intros t' _ Eq. rewrite Eq in Ee. unfold scan_exponent in Ee. change ((46 =? 101)%N || (46 =? 69)%N) with false in Ee. cbn iota in Ee. injection Ee as _ <- _. lia. }
  rewrite (integer_app _ q _ _ Ei N0), (fraction_app _ q _ _ Ef N1 Dot), (exponent_app _ q _ _ Ee); [|discriminate|intros c' t' _ Eq; injection Eq as <- _; lia].
  destruct (f ++ e); [apply bind_ok in H as (n & -> & H); injection H as <-; reflexivity|injection H as <-; reflexivity].
Qed.
Lemma word_app w v s q x r : word w v s = Ok (x, r) -> word w v (s ++ q) = Ok (x, r ++ q).
Proof.
  unfold word. destruct (startswith w s) eqn:E; [|discriminate]. intros H. injection H as <- <-. apply startswith_spec in E as (t & ->).
  rewrite <- app_assoc, startswith_app, !skipn_app, !skipn_all, !Nat.sub_diag. reflexivity.
Qed.
(* texts whose end is known without looking further *)
Definition bounded (s : pystr) : Prop := exists c t, s = c :: t /\ In c [34; 91; 123]%N.

Theorem scan_app io f :
  (forall s q v r f', scan_once io f s = Ok (v, r) -> bounded s \/ closed r -> (f <= f')%nat -> scan_once io f' (s ++ q) = Ok (v, r ++ q)) /\
  (forall s q v r f', scan_items io f s = Ok (v, r) -> (f <= f')%nat -> scan_items io f' (s ++ q) = Ok (v, r ++ q)) /\
  (forall s q v r f', scan_members io f s = Ok (v, r) -> (f <= f')%nat -> scan_members io f' (s ++ q) = Ok (v, r ++ q)).
Proof.
  induction f as [|f (IH1 & IH2 & IH3)]; [split; [|split]; discriminate|]. split; [|split].
  - intros s q v r [|f'] H B L; [lia|]. destruct s as [|c t]; [discriminate|]. cbn [app]. cbn [scan_once] in *.
    destruct (c =? 34)%N; [apply bind_ok in H as ([x r0] & E & H); injection H as <- <-; rewrite (string_app _ _ q _ _ f' E ltac:(lia)); reflexivity|].
    destruct (c =? 123)%N.
    { destruct (skip_space t) as [|d t'] eqn:E; [discriminate|]. rewrite (skip_app _ q _ _ E). destruct (d =? 125)%N; [injection H as <- <-; reflexivity|].
      apply bind_ok in H as ([x r0] & E1 & H). injection H as <- <-. change (d :: t' ++ q) with ((d :: t') ++ q). rewrite (IH3 _ q _ _ f' E1 ltac:(lia)). reflexivity. }
    destruct (c =? 91)%N.
    { destruct (skip_space t) as [|d t'] eqn:E; [discriminate|]. rewrite (skip_app _ q _ _ E). destruct (d =? 93)%N; [injection H as <- <-; reflexivity|].
      apply bind_ok in H as ([x r0] & E1 & H). injection H as <- <-. change (d :: t' ++ q) with ((d :: t') ++ q). rewrite (IH2 _ q _ _ f' E1 ltac:(lia)). reflexivity. }
    change (c :: t ++ q) with ((c :: t) ++ q).
    destruct (c =? 110)%N; [exact (word_app _ _ _ q _ _ H)|]. destruct (c =? 116)%N; [exact (word_app _ _ _ q _ _ H)|]. destruct (c =? 102)%N; [exact (word_app _ _ _ q _ _ H)|].
    destruct (c =? 78)%N; [exact (word_app _ _ _ q _ _ H)|]. destruct (c =? 73)%N; [exact (word_app _ _ _ q _ _ H)|].
    destruct (startswith (u8 "-Infinity") (c :: t)) eqn:E.
    { apply startswith_spec in E as (u & E). rewrite E in *. rewrite <- app_assoc, startswith_app. injection H as <- <-. reflexivity. }
    assert (C : closed r).
    { destruct B as [(c' & t' & Eq & Hc)|C]; [|exact C]. exfalso. injection Eq as <- <-. clear - H Hc. cbn [In] in Hc. destruct Hc as [<-|[<-|[<-|[]]]]; cbn in H; discriminate H. }
    pose proof (number_app io _ q _ _ H C) as G. rewrite (not_infinity _ _ _ _ G). exact G.
  - intros s q v r [|f'] H L; [lia|]. cbn [scan_items] in *. apply bind_ok in H as ([x r0] & E & H). cbn [fst snd] in *.
    destruct (skip_space r0) as [|c t] eqn:Es; [discriminate|].
    assert (D : delimiter c). { destruct (c =? 93)%N eqn:E1; [unfold delimiter; cbn [In]; lia|]. destruct (c =? 44)%N eqn:E2; [unfold delimiter; cbn [In]; lia|discriminate]. }
    rewrite (IH1 _ q _ _ f' E (or_intror (closed_skip _ _ _ Es D)) ltac:(lia)). cbn [bind fst snd]. rewrite (skip_app _ q _ _ Es).
    destruct (c =? 93)%N; [injection H as <- <-; reflexivity|]. destruct (c =? 44)%N; [|discriminate]. apply bind_ok in H as ([y r1] & E1 & H). injection H as <- <-.
    destruct (skip_space t) as [|d u] eqn:Et; [destruct f; [discriminate|]; cbn [scan_items] in E1; destruct f; discriminate|]. rewrite (skip_app _ q _ _ Et).
    change (d :: u ++ q) with ((d :: u) ++ q). rewrite (IH2 _ q _ _ f' E1 ltac:(lia)). reflexivity.
  - intros s q v r [|f'] H L; [lia|]. destruct s as [|k0 s]; [discriminate|]. cbn [app]. cbn [scan_members] in *. destruct (negb (k0 =? 34)%N); [discriminate|].
    apply bind_ok in H as ([k rk] & Ek & H). cbn [fst snd] in *. rewrite (string_app _ _ q _ _ f' Ek ltac:(lia)). cbn [bind fst snd].
    destruct (skip_space rk) as [|c0 t0] eqn:Ec; [discriminate|]. rewrite (skip_app _ q _ _ Ec). destruct (negb (c0 =? 58)%N); [discriminate|].
    apply bind_ok in H as ([x r0] & E & H). cbn [fst snd] in *.
    destruct (skip_space r0) as [|c t] eqn:Es; [discriminate|].
    assert (D : delimiter c). { destruct (c =? 125)%N eqn:E1; [unfold delimiter; cbn [In]; lia|]. destruct (c =? 44)%N eqn:E2; [unfold delimiter; cbn [In]; lia|discriminate]. }
    destruct (skip_space t0) as [|d0 u0] eqn:Et0; [destruct f; discriminate|]. rewrite (skip_app _ q _ _ Et0). change (d0 :: u0 ++ q) with ((d0 :: u0) ++ q).
    rewrite (IH1 _ q _ _ f' E (or_intror (closed_skip _ _ _ Es D)) ltac:(lia)). cbn [bind fst snd]. rewrite (skip_app _ q _ _ Es).
    destruct (c =? 125)%N; [injection H as <- <-; reflexivity|]. destruct (c =? 44)%N; [|discriminate]. apply bind_ok in H as ([y r1] & E1 & H). injection H as <- <-.
    destruct (skip_space t) as [|d u] eqn:Et; [destruct f; discriminate|]. rewrite (skip_app _ q _ _ Et).
    change (d :: u ++ q) with ((d :: u) ++ q). rewrite (IH3 _ q _ _ f' E1 ltac:(lia)). reflexivity.
Qed.

Theorem cut_fails io v t p q : json_text io v t -> bounded t -> t = p ++ q -> q <> [] -> forall b, json_load io p <> Ok b.
Proof.
  intros H (c0 & t0 & Et & Hc) E Hq b Hl. unfold json_load in Hl. apply bind_ok in Hl as ([w r] & Es & _).
  destruct p as [|c p]; [discriminate Es|]. rewrite Et in E. injection E as <- Et0.
  assert (Sp : json_space c0 = false) by (cbn [In] in Hc; unfold json_space; lia). rewrite (skip_cons c0 p Sp) in Es.
  assert (B : bounded (c0 :: p)) by (exists c0, p; split; [reflexivity|exact Hc]).
  destruct (proj1 (texts_read io) v t H) as [_ R]. specialize (R [] (S (S (List.length t))) (or_introl eq_refl) ltac:(lia)).
  pose proof (proj1 (scan_app io _) _ q _ _ (S (S (List.length t))) Es (or_introl B)) as G. rewrite app_nil_r in R.
  assert (Et' : (c0 :: p) ++ q = t) by (rewrite Et, Et0; reflexivity). rewrite Et' in G. rewrite G in R; [|rewrite <- Et', app_length; lia].
  injection R as _ R. apply app_eq_nil in R as [_ R]. exact (Hq R).
Qed.

(** * Repeated keys *)
Lemma dict_set_keys {A} k (v : A) l : NoDup (map fst l) -> NoDup (map fst (dict_set str_eqb k v l)) /\ forall x, In x (map fst (dict_set str_eqb k v l)) -> x = k \/ In x (map fst l).
Proof.
  induction l as [|[k' v'] l IH]; intros H; cbn [dict_set map fst].
  - split; [repeat constructor; intros []|]. intros x [<-|[]]. now left.
  - inversion H as [|? ? H1 H2]; subst. destruct (str_eqb k k') eqn:E; cbn [map fst].
    + split; [exact H|]. intros x Hx. now right.
    + destruct (IH H2) as [N1 K]. split; [constructor; [|exact N1]|].
      * intros I. destruct (K _ I) as [->|I']; [rewrite str_eqb_refl in E; discriminate|exact (H1 I')].
      * intros x [<-|Hx]; [right; now left|]. destruct (K x Hx) as [->|I]; [now left|right; now right].
Qed.
Lemma dict_of_last l : NoDup (map fst (dict_of l)) /\ forall k v, lookup k (dict_of l) = Some v <-> last_value k v l.
Proof.
  unfold dict_of. induction l as [|[k0 v0] l IH] using rev_ind; [split; [constructor|]; intros k v; split; [discriminate|intros (a & b & E & _); destruct a; discriminate]|].
  rewrite fold_left_app. cbn [fold_left fst snd]. destruct IH as [N1 IH]. split; [exact (proj1 (dict_set_keys k0 v0 _ N1))|]. intros k v. rewrite lookup_dict_set.
  destruct (str_eqb k k0) eqn:E.
  - apply str_eqb_eq in E. subst k0. split.
    + intros H. injection H as <-. exists l, []. split; [reflexivity|intros []].
    + intros (a & b & E & Hb). destruct b as [|x b] using rev_ind; [apply app_inj_tail in E as [_ E]; injection E as ->; reflexivity|].
      exfalso. rewrite app_comm_cons, app_assoc in E. apply app_inj_tail in E as [_ <-]. apply Hb. rewrite map_app. apply in_or_app. right. now left.
  - rewrite IH. assert (Nk : k <> k0) by (intros ->; rewrite str_eqb_refl in E; discriminate). split.
    + intros (a & b & -> & Hb). exists a, (b ++ [(k0, v0)]). split; [now rewrite <- app_assoc|]. rewrite map_app, in_app_iff. intros [I|[I|[]]]; [exact (Hb I)|cbn in I; congruence].
    + intros (a & b & Eq & Hb). destruct b as [|x b _] using rev_ind; [apply app_inj_tail in Eq as [_ Eq]; injection Eq as -> _; congruence|].
      rewrite app_comm_cons, app_assoc in Eq. apply app_inj_tail in Eq as [-> _]. exists a, b. split; [reflexivity|]. intros I. apply Hb. rewrite map_app. apply in_or_app. now left.
Qed.
Theorem repeated_read io l t : json_members io l t -> exists d, json_load io (u8 "{" ++ t ++ u8 "}") = Ok (VDict d) /\ NoDup (map fst d) /\ forall k v, lookup k d = Some v <-> last_value k v l.
Proof.
  intros H. exists (dict_of l). split; [|exact (dict_of_last l)].
  destruct (proj2 (proj2 (texts_read io)) l t H [] (S (List.length (u8 "{" ++ t ++ u8 "}")))) as ((u & E) & R); [rewrite !app_length; cbn [length]; lia|].
  unfold json_load. change (u8 "{") with [123%N] in *. change (u8 "}") with [125%N] in *. cbn [app] in *. rewrite (skip_cons 123%N) by reflexivity.
  cbn [scan_once]. change (123 =? 34)%N with false. change (123 =? 123)%N with true. cbn iota. rewrite E in *. change (34 =? 125)%N with false. cbn iota. rewrite R. reflexivity.
Qed.
