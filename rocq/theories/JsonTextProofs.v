(* Reading JSON texts. *)
From Coq Require Import Lia Floats.SpecFloat.
From Coq Require Import ZifyBool ZifyNat ZifyN.
From Verif Require Import PyBase PyBaseFacts LineModel D2oModel D2oSpec D2oProofs JsonTextModel JsonTextSpec.
Local Open Scope Z_scope.

(** * White space *)
Definition starts_solid (s : pystr) : Prop := exists c t, s = c :: t /\ json_space c = false.
Lemma blank_space b s : blank b -> skip_space (b ++ s) = skip_space s.
Proof.
  unfold skip_space. induction 1 as [|c b Hc _ IH]; [reflexivity|]. cbn [app drop_while].
  replace (json_space c) with true by (cbn [In] in Hc; unfold json_space; lia). exact IH.
Qed.
Lemma solid_space s : starts_solid s -> skip_space s = s.
Proof. intros (c & t & -> & H). unfold skip_space. cbn [drop_while]. rewrite H. reflexivity. Qed.
Lemma solid_app s t : starts_solid s -> starts_solid (s ++ t).
Proof. intros (c & u & -> & H). exists c, (u ++ t). split; [reflexivity|exact H]. Qed.
Lemma blank_solid b s : blank b -> starts_solid s -> skip_space (b ++ s) = s.
Proof. intros H S. rewrite blank_space by exact H. now apply solid_space. Qed.

(** * Strings *)
Lemma hex_char_value n c : hex_char n c -> hex_value c = Some n /\ (n < 16)%N.
Proof.
  intros H. unfold hex_value. destruct H as [n H|n H|n H].
  - replace ((48 <=? 48 + n)%N && (48 + n <=? 57)%N) with true by lia. split; [f_equal; lia|lia].
  - replace ((48 <=? 87 + n)%N && (87 + n <=? 57)%N) with false by lia. replace ((97 <=? 87 + n)%N && (87 + n <=? 102)%N) with true by lia. split; [f_equal; lia|lia].
  - replace ((48 <=? 55 + n)%N && (55 + n <=? 57)%N) with false by lia. replace ((97 <=? 55 + n)%N && (55 + n <=? 102)%N) with false by lia.
    replace ((65 <=? 55 + n)%N && (55 + n <=? 70)%N) with true by lia. split; [f_equal; lia|lia].
Qed.
Lemma hex_quad_read n h t : hex_quad n h -> read_hex4 (h ++ t) = Some (n, t) /\ List.length h = 4%nat.
Proof.
  intros H. destruct H as [a b c d a' b' c' d' A B C E]. split; [|reflexivity]. cbn [app read_hex4].
  rewrite (proj1 (hex_char_value _ _ A)), (proj1 (hex_char_value _ _ B)), (proj1 (hex_char_value _ _ C)), (proj1 (hex_char_value _ _ E)). reflexivity.
Qed.
Lemma chars_read s t : json_chars s t -> forall rest fuel, (List.length t < fuel)%nat -> scan_string fuel (t ++ 34%N :: rest) = Ok (s, rest).
Proof.
  induction 1 as [|c s t H1 H2 H3 _ IH|c e s t Hin _ IH|c h s t Hq Hs _ IH|a b h k s t Hh Hk Ha Hb _ IH]; intros rest fuel Hf.
  - destruct fuel as [|f]; [cbn in Hf; lia|]. reflexivity.
  - destruct fuel as [|f]; [lia|]. cbn [length] in Hf. cbn [app scan_string].
    replace (c =? 34)%N with false by (symmetry; apply N.eqb_neq; exact H2). replace (c =? 92)%N with false by (symmetry; apply N.eqb_neq; exact H3).
    replace (c <? 32)%N with false by lia. rewrite IH by lia. reflexivity.
  - destruct fuel as [|f]; [lia|]. cbn [length app] in Hf. cbn [app scan_string]. change (92 =? 34)%N with false. change (92 =? 92)%N with true. cbn iota.
    assert (E : read_escape (e :: t ++ 34%N :: rest) = Ok (c, t ++ 34%N :: rest)).
    { cbn [In] in Hin. repeat (destruct Hin as [Hin|Hin]; [injection Hin as <- <-; reflexivity|]). destruct Hin. }
    rewrite E. cbn [bind snd fst]. rewrite IH by lia. reflexivity.
  - destruct fuel as [|f]; [lia|]. destruct (hex_quad_read c h (t ++ 34%N :: rest) Hq) as [R L]. cbn [app length] in Hf. rewrite app_length, L in Hf.
    cbn [app scan_string]. change (92 =? 34)%N with false. change (92 =? 92)%N with true. cbn iota.
    assert (E : read_escape (117%N :: (h ++ t) ++ 34%N :: rest) = Ok (c, t ++ 34%N :: rest)).
    { cbn [read_escape]. change (117 =? 117)%N with true. cbn iota. rewrite <- app_assoc, R.
      unfold surrogate in Hs. replace ((55296 <=? c)%N && (c <=? 56319)%N) with false by lia. reflexivity. }
    rewrite E. cbn [bind snd fst]. rewrite IH by lia. reflexivity.
  - destruct fuel as [|f]; [lia|]. destruct (hex_quad_read _ h ([92; 117]%N ++ k ++ t ++ 34%N :: rest) Hh) as [R L]. destruct (hex_quad_read _ k (t ++ 34%N :: rest) Hk) as [R2 L2].
    cbn [app length] in Hf. rewrite app_length in Hf. cbn [length] in Hf. rewrite app_length, L, L2 in Hf.
    cbn [app scan_string]. change (92 =? 34)%N with false. change (92 =? 92)%N with true. cbn iota.
    assert (E : read_escape (117%N :: (h ++ 92%N :: 117%N :: k ++ t) ++ 34%N :: rest) = Ok ((65536 + a * 1024 + b)%N, t ++ 34%N :: rest)).
    { cbn [read_escape]. change (117 =? 117)%N with true. cbn iota. rewrite <- app_assoc. cbn [app]. rewrite <- app_assoc. cbn [app] in R. rewrite R.
      replace ((55296 <=? 55296 + a)%N && (55296 + a <=? 56319)%N) with true by lia. change (92 =? 92)%N with true. cbn [andb]. change (117 =? 117)%N with true. cbn iota.
      rewrite R2. replace ((56320 <=? 56320 + b)%N && (56320 + b <=? 57343)%N) with true by lia. do 2 f_equal. lia. }
    rewrite E. cbn [bind snd fst]. rewrite IH by lia. reflexivity.
Qed.

(** * Numbers *)
Definition delimiter (c : N) : Prop := In c [9; 10; 13; 32; 44; 93; 125]%N.
Definition delimited (s : pystr) : Prop := s = [] \/ exists c t, s = c :: t /\ delimiter c.
(* does not go on with a digit *)
Definition stops (s : pystr) : Prop := s = [] \/ exists c t, s = c :: t /\ is_digit c = false.
Lemma digits_read ds rest : Forall digit ds -> stops rest -> digits (ds ++ rest) = (ds, rest).
Proof.
  intros H S. unfold digits. induction H as [|c ds Hc _ IH]; cbn [app].
  - destruct S as [->|(c & t & -> & E)]; [reflexivity|]. cbn [take_while drop_while]. rewrite E. reflexivity.
  - cbn [take_while drop_while]. replace (is_digit c) with true by (unfold digit in Hc; unfold is_digit; lia). injection IH as E1 E2. rewrite E1, E2. reflexivity.
Qed.
Lemma whole_read i rest : whole i -> stops rest -> scan_integer (i ++ rest) = Some (i, rest) /\ scan_integer (45%N :: i ++ rest) = Some (45%N :: i, rest).
Proof.
  intros H S. destruct H as [->|(c & t & -> & Hc & Ht)]; [split; reflexivity|].
  assert (D : digits ((c :: t) ++ rest) = (c :: t, rest)) by (apply digits_read; [constructor; [unfold digit; lia|exact Ht]|exact S]).
  unfold scan_integer. cbn [app]. change (45 =? 45)%N with true. cbn iota. cbn [app] in D.
  replace (c =? 45)%N with false by lia. replace (c =? 48)%N with false by lia. replace (is_digit c) with true by (unfold is_digit; lia). rewrite D. split; reflexivity.
Qed.
Lemma fraction_read f rest : fraction f -> stops rest -> scan_fraction (f ++ rest) = (f, rest).
Proof.
  intros (t & -> & Hn & Ht) S. change (u8 ".") with [46%N]. cbn [app scan_fraction]. rewrite (digits_read t rest Ht S). cbn [fst snd]. change (46 =? 46)%N with true.
  destruct t as [|c t]; [congruence|]. reflexivity.
Qed.
Definition not_dot (s : pystr) : Prop := forall t, s <> 46%N :: t.
Lemma no_fraction s : not_dot s -> scan_fraction s = ([], s).
Proof. intros H. destruct s as [|c s]; [reflexivity|]. unfold scan_fraction. replace (c =? 46)%N with false; [reflexivity|]. symmetry. apply N.eqb_neq. intros ->. exact (H s eq_refl). Qed.
Definition not_e (s : pystr) : Prop := (forall t, s <> 101%N :: t) /\ forall t, s <> 69%N :: t.
Lemma no_exponent s : not_e s -> scan_exponent s = ([], s).
Proof.
  intros [H1 H2]. destruct s as [|c s]; [reflexivity|]. unfold scan_exponent. replace ((c =? 101)%N || (c =? 69)%N) with false; [reflexivity|].
  symmetry. apply orb_false_iff. split; apply N.eqb_neq; intros ->; [exact (H1 s eq_refl)|exact (H2 s eq_refl)].
Qed.
Lemma exponent_read e rest : exponent e -> stops rest -> scan_exponent (e ++ rest) = (e, rest).
Proof.
  intros (c & sign & t & -> & Hc & Hs & Hn & Ht) S.
  assert (G : forall c', (c' =? 101)%N || (c' =? 69)%N = true -> scan_exponent (([c'] ++ sign ++ t) ++ rest) = ([c'] ++ sign ++ t, rest)).
  { intros c' E. cbn [app]. unfold scan_exponent. rewrite E. rewrite <- app_assoc. cbn [In] in Hs.
    assert (Nz : negb (str_eqb t []) = true) by (destruct t; [congruence|reflexivity]).
    destruct Hs as [<-|[<-|[<-|[]]]].
    - cbn [app]. pose proof (digits_read t rest Ht S) as D. destruct t as [|d t]; [congruence|]. cbn [app].
      replace ((d =? 43)%N || (d =? 45)%N) with false by (inversion Ht; subst; unfold digit in *; lia). cbn [app] in D. rewrite D. cbn [fst snd]. reflexivity.
    - change (u8 "+") with [43%N]. cbn [app]. change ((43 =? 43)%N || (43 =? 45)%N) with true. cbn iota. rewrite (digits_read t rest Ht S). cbn [fst snd]. rewrite Nz. reflexivity.
    - change (u8 "-") with [45%N]. cbn [app]. change ((45 =? 43)%N || (45 =? 45)%N) with true. cbn iota. rewrite (digits_read t rest Ht S). cbn [fst snd]. rewrite Nz. reflexivity. }
  cbn [In] in Hc. destruct Hc as [<-|[<-|[]]]; [exact (G 101%N eq_refl)|exact (G 69%N eq_refl)].
Qed.
Lemma delimited_stops s : delimited s -> stops s /\ not_dot s /\ not_e s.
Proof.
  intros [->|(c & t & -> & H)]; [split; [now left|split; [discriminate|split; discriminate]]|].
  unfold delimiter in H. cbn [In] in H. split; [right; exists c, t; split; [reflexivity|unfold is_digit; lia]|].
  split; [intros u E; injection E as -> _; lia|]. split; intros u E; injection E as -> _; lia.
Qed.
Lemma decimal_read io t rest : decimal t -> delimited rest -> scan_number io (t ++ rest) = Ok (VFloat (fl_read io t), rest).
Proof.
  intros (sign & i & f & e & -> & Hs & Hi & Hf & He & Hfe) D. destruct (delimited_stops rest D) as (S & Nd & Ne).
  assert (Se : stops (e ++ rest)). { destruct He as [->|(c & sg & u & -> & Hc & _)]; [exact S|]. right. cbn [In] in Hc. destruct Hc as [<-|[<-|[]]]; eexists; eexists; split; reflexivity. }
  assert (Nde : not_dot (e ++ rest)). { destruct He as [->|(c & sg & u & -> & Hc & _)]; [exact Nd|]. cbn [In] in Hc. destruct Hc as [<-|[<-|[]]]; intros x E; discriminate E. }
  assert (Sf : stops (f ++ e ++ rest)). { destruct Hf as [->|(u & -> & _)]; [exact Se|]. right. eexists; eexists; split; reflexivity. }
  assert (I : scan_integer ((sign ++ i ++ f ++ e) ++ rest) = Some (sign ++ i, f ++ e ++ rest)).
  { rewrite <- !app_assoc. destruct (whole_read i (f ++ e ++ rest) Hi Sf) as [W1 W2]. cbn [In] in Hs. destruct Hs as [<-|[<-|[]]]; [exact W1|exact W2]. }
  assert (F : scan_fraction (f ++ e ++ rest) = (f, e ++ rest)). { destruct Hf as [->|Hf]; [exact (no_fraction _ Nde)|]. exact (fraction_read f _ Hf Se). }
  assert (E : scan_exponent (e ++ rest) = (e, rest)). { destruct He as [->|He]; [exact (no_exponent _ Ne)|]. exact (exponent_read e _ He S). }
  unfold scan_number. rewrite I, F, E. assert (Nn : f ++ e <> []).
  { destruct Hfe as [(u & -> & _)|(c & sg & u & -> & Hc & _)]; [discriminate|]. cbn [In] in Hc. destruct Hc as [<-|[<-|[]]]; destruct f; discriminate. }
  destruct (f ++ e) eqn:Efe; [congruence|]. rewrite <- Efe, <- app_assoc. reflexivity.
Qed.
Lemma dec_whole n : whole (dec_N n).
Proof.
  pose proof (dec_N_digits n) as H. pose proof (dec_N_nonempty n) as Nn. unfold whole.
  destruct (dec_N n) as [|c t] eqn:E; [congruence|]. unfold ascii_digits in H. inversion H as [|c' t' Hc Ht]; subst.
  destruct (N.eq_dec c 48) as [->|Hc0].
  - left. destruct (N.eq_dec n 0) as [->|Hn]; [vm_compute in E; injection E as <-; reflexivity|]. exfalso.
    assert (L : forall fuel m acc, (m <> 0)%N -> (m < 10 ^ N.of_nat fuel)%N -> (exists c u, dec_aux fuel m acc = c :: u /\ c <> 48%N)).
    { intros fuel. induction fuel as [|fuel IH]; intros m acc Hm Hl; [change (10 ^ N.of_nat 0)%N with 1%N in Hl; lia|]. cbn [dec_aux]. destruct (m <? 10)%N eqn:E10.
      - eexists; eexists; split; [reflexivity|]. rewrite N.mod_small by lia. lia.
      - apply IH; [intros E0; apply N.div_small_iff in E0; lia|]. apply N.div_lt_upper_bound; [lia|]. replace (N.of_nat (S fuel)) with (N.succ (N.of_nat fuel)) in Hl by lia.
        rewrite N.pow_succ_r' in Hl. exact Hl. }
    unfold dec_N in E. destruct (L (S (N.to_nat (N.log2 n))) n [] Hn) as (c & u & Ec & Nc).
    + apply N.lt_le_trans with (2 ^ N.succ (N.log2 n))%N; [apply N.log2_spec; lia|]. replace (N.of_nat (S (N.to_nat (N.log2 n)))) with (N.succ (N.log2 n)) by lia.
      apply N.pow_le_mono_l. lia.
    + rewrite Ec in E. injection E as -> _. congruence.
  - right. exists c, t. split; [reflexivity|]. split; [lia|]. apply Forall_forall. intros x Hx. rewrite Forall_forall in Ht. specialize (Ht x Hx). unfold digit. lia.
Qed.
Lemma int_text i : (exists n, str_of_int i = dec_N n) \/ exists n, str_of_int i = 45%N :: dec_N n.
Proof. unfold str_of_int. destruct (i <? 0); eauto. Qed.
Lemma py_int_text i : py_int (str_of_int i) = Ok i.
Proof.
  unfold str_of_int. destruct (i <? 0) eqn:E; [|rewrite py_int_dec; f_equal; lia].
  pose proof (dec_N_digits (Z.abs_N i)) as Hs. pose proof (dec_N_nonempty (Z.abs_N i)) as Hn. pose proof (dec_N_val (Z.abs_N i)) as Hv.
  unfold py_int. set (ds := dec_N (Z.abs_N i)) in *.
  assert (E1 : drop_while int_space (45%N :: ds) = 45%N :: ds) by reflexivity. rewrite E1.
  assert (E2 : drop_while int_space (rev (45%N :: ds)) = rev (45%N :: ds)).
  { apply drop_while_none. cbn [rev]. apply Forall_rev in Hs. destruct (rev ds) as [|c t]; [reflexivity|]. inversion Hs; subst. now apply int_space_digit. }
  rewrite E2, rev_involutive. change (45 =? 45)%N with true. cbn iota. rewrite int_digits_ascii; [|exact Hs|now left].
  change (fold_left (fun a c => (a * 10 + (c - 48))%N) ds 0%N) with (digits_val ds). rewrite Hv. cbn [bind]. f_equal. lia.
Qed.
Lemma int_read io i rest : delimited rest -> scan_number io (str_of_int i ++ rest) = Ok (VInt i, rest).
Proof.
  intros D. destruct (delimited_stops rest D) as (S & Nd & Ne).
  assert (I : scan_integer (str_of_int i ++ rest) = Some (str_of_int i, rest)).
  { destruct (int_text i) as [(n & ->)|(n & ->)]; destruct (whole_read (dec_N n) rest (dec_whole n) S) as [W1 W2]; [exact W1|exact W2]. }
  unfold scan_number. rewrite I, (no_fraction _ Nd), (no_exponent _ Ne). cbn [app]. rewrite py_int_text. reflexivity.
Qed.

(** * Values *)
(* the first characters of values *)
Definition opens (c : N) : Prop := json_space c = false /\ c <> 93%N /\ c <> 125%N /\ c <> 44%N.
Lemma int_starts i : exists c t, str_of_int i = c :: t /\ (c = 45 \/ 48 <= c <= 57)%N.
Proof.
  unfold str_of_int. assert (D : forall n, exists c t, dec_N n = c :: t /\ (48 <= c <= 57)%N).
  { intros n. pose proof (dec_N_digits n) as H. pose proof (dec_N_nonempty n) as Nn. destruct (dec_N n) as [|c t]; [congruence|]. inversion H; subst. exists c, t. split; [reflexivity|assumption]. }
  destruct (i <? 0); [exists 45%N, (dec_N (Z.abs_N i)); split; [reflexivity|now left]|]. destruct (D (Z.to_N i)) as (c & t & E & H). exists c, t. split; [exact E|now right].
Qed.
Lemma decimal_starts t : decimal t -> exists c u, t = c :: u /\ (c = 45 \/ 48 <= c <= 57)%N.
Proof.
  intros (sign & i & f & e & -> & Hs & Hi & _). assert (D : exists c u, i = c :: u /\ (48 <= c <= 57)%N).
  { destruct Hi as [->|(c & u & -> & Hc & _)]; [exists 48%N, []; split; [reflexivity|lia]|exists c, u; split; [reflexivity|lia]]. }
  destruct D as (c & u & -> & Hc). cbn [In] in Hs. destruct Hs as [<-|[<-|[]]]; cbn [app]; eexists; eexists; (split; [reflexivity|]); [right; exact Hc|left; reflexivity].
Qed.
(* what scan_once does with a number *)
Lemma number_once io f s c t : s = c :: t -> (c = 45 \/ 48 <= c <= 57)%N -> startswith (u8 "-Infinity") s = false -> scan_once io (S f) s = scan_number io s.
Proof.
  intros -> H I. cbn [scan_once]. replace (c =? 34)%N with false by lia. replace (c =? 123)%N with false by lia. replace (c =? 91)%N with false by lia.
  replace (c =? 110)%N with false by lia. replace (c =? 116)%N with false by lia. replace (c =? 102)%N with false by lia. replace (c =? 78)%N with false by lia.
  replace (c =? 73)%N with false by lia. rewrite I. reflexivity.
Qed.
Lemma not_infinity io s v r : scan_number io s = Ok (v, r) -> startswith (u8 "-Infinity") s = false.
Proof.
  intros H. destruct (startswith (u8 "-Infinity") s) eqn:E; [|reflexivity]. exfalso. apply startswith_spec in E as (t & ->). vm_compute in H. discriminate H.
Qed.
Lemma word_read w v rest : word w v (w ++ rest) = Ok (v, rest).
Proof. unfold word. rewrite startswith_app, skipn_app, skipn_all, Nat.sub_diag. reflexivity. Qed.
Lemma dict_of_unique l : NoDup (map fst l) -> dict_of l = l.
Proof.
  unfold dict_of. intros H. assert (G : forall acc, NoDup (map fst (acc ++ l)) -> fold_left (fun d kv => dict_set str_eqb (fst kv) (snd kv) d) l acc = acc ++ l); [|apply (G []); exact H].
  clear H. induction l as [|[k v] l IH]; intros acc H; cbn [fold_left]; [now rewrite app_nil_r|]. cbn [fst snd].
  rewrite dict_set_new; [rewrite IH; rewrite <- app_assoc; [reflexivity|exact H]|]. rewrite map_app in H. cbn [map fst] in H. apply NoDup_remove_2 in H. rewrite in_app_iff in H. tauto.
Qed.
Lemma delimited_cons c t : delimiter c -> delimited (c :: t).
Proof. intros H. right. exists c, t. split; [reflexivity|exact H]. Qed.
Lemma delimited_blank b c t : blank b -> delimiter c -> delimited (b ++ c :: t).
Proof.
  intros Hb Hc. destruct Hb as [|d b Hd _]; [now apply delimited_cons|]. cbn [app]. apply delimited_cons. unfold delimiter. cbn [In] in *. tauto.
Qed.
Lemma opens_solid c t : opens c -> starts_solid (c :: t).
Proof. intros H. exists c, t. split; [reflexivity|exact (proj1 H)]. Qed.
Lemma skip_cons c t : json_space c = false -> skip_space (c :: t) = c :: t.
Proof. intros H. unfold skip_space. cbn [drop_while]. rewrite H. reflexivity. Qed.

Theorem texts_read io :
  (forall v t, json_text io v t -> (exists c u, t = c :: u /\ opens c) /\ forall rest fuel, delimited rest -> (List.length t < fuel)%nat -> scan_once io fuel (t ++ rest) = Ok (v, rest)) /\
  (forall l t, json_items io l t -> forall rest fuel, (S (List.length t) < fuel)%nat ->
     (exists c u, skip_space (t ++ 93%N :: rest) = c :: u /\ opens c) /\ scan_items io fuel (skip_space (t ++ 93%N :: rest)) = Ok (l, rest)) /\
  (forall l t, json_members io l t -> forall rest fuel, (S (List.length t) < fuel)%nat ->
     (exists u, skip_space (t ++ 125%N :: rest) = 34%N :: u) /\ scan_members io fuel (skip_space (t ++ 125%N :: rest)) = Ok (l, rest)).
Proof.
  apply json_mutind.
  - split; [eexists; eexists; split; [reflexivity|split; [reflexivity|split; [discriminate|split; discriminate]]]|]. intros rest [|f] _ Hf; [lia|]. exact (word_read (u8 "null") VNone rest).
  - split; [eexists; eexists; split; [reflexivity|split; [reflexivity|split; [discriminate|split; discriminate]]]|]. intros rest [|f] _ Hf; [lia|]. exact (word_read (u8 "true") (VBool true) rest).
  - split; [eexists; eexists; split; [reflexivity|split; [reflexivity|split; [discriminate|split; discriminate]]]|]. intros rest [|f] _ Hf; [lia|]. exact (word_read (u8 "false") (VBool false) rest).
  - intros i. destruct (int_starts i) as (c & t & E & Hc). split; [exists c, t; split; [exact E|unfold opens, json_space; lia]|].
    intros rest [|f] D Hf; [lia|]. pose proof (int_read io i rest D) as R. rewrite <- R. apply (number_once io f _ c (t ++ rest)); [rewrite E; reflexivity|exact Hc|exact (not_infinity _ _ _ _ R)].
  - intros t Ht. destruct (decimal_starts t Ht) as (c & u & E & Hc). split; [exists c, u; split; [exact E|unfold opens, json_space; lia]|].
    intros rest [|f] D Hf; [lia|]. pose proof (decimal_read io t rest Ht D) as R. rewrite <- R. apply (number_once io f _ c (u ++ rest)); [rewrite E; reflexivity|exact Hc|exact (not_infinity _ _ _ _ R)].
  - split; [eexists; eexists; split; [reflexivity|split; [reflexivity|split; [discriminate|split; discriminate]]]|]. intros rest [|f] _ Hf; [lia|]. exact (word_read (u8 "NaN") (VFloat S754_nan) rest).
  - split; [eexists; eexists; split; [reflexivity|split; [reflexivity|split; [discriminate|split; discriminate]]]|]. intros rest [|f] _ Hf; [lia|]. exact (word_read (u8 "Infinity") (VFloat (S754_infinity false)) rest).
  - split; [eexists; eexists; split; [reflexivity|split; [reflexivity|split; [discriminate|split; discriminate]]]|]. intros rest [|f] _ Hf; [lia|]. reflexivity.
  - intros s t Hs. split; [eexists; eexists; split; [reflexivity|split; [reflexivity|split; [discriminate|split; discriminate]]]|].
    intros rest [|f] _ Hf; [lia|]. change (u8 """") with [34%N] in *. cbn [app length] in Hf. rewrite app_length in Hf. cbn [length] in Hf.
    cbn [app]. rewrite <- app_assoc. cbn [app scan_once]. change (34 =? 34)%N with true. cbn iota. rewrite (chars_read s t Hs) by lia. reflexivity.
  - intros b Hb. split; [eexists; eexists; split; [reflexivity|split; [reflexivity|split; [discriminate|split; discriminate]]]|].
    intros rest [|f] _ Hf; [lia|]. change (u8 "[") with [91%N]. change (u8 "]") with [93%N]. cbn [app]. rewrite <- app_assoc. cbn [app scan_once].
    change (91 =? 34)%N with false. change (91 =? 123)%N with false. change (91 =? 91)%N with true. cbn iota. rewrite blank_solid; [reflexivity|exact Hb|]. exists 93%N, rest. split; reflexivity.
  - intros l t _ IH. split; [eexists; eexists; split; [reflexivity|split; [reflexivity|split; [discriminate|split; discriminate]]]|].
    intros rest [|f] _ Hf; [lia|]. change (u8 "[") with [91%N] in *. change (u8 "]") with [93%N] in *. cbn [app length] in Hf. rewrite app_length in Hf. cbn [length] in Hf.
    cbn [app]. rewrite <- app_assoc. cbn [app scan_once]. change (91 =? 34)%N with false. change (91 =? 123)%N with false. change (91 =? 91)%N with true. cbn iota.
    destruct (IH rest f ltac:(lia)) as ((c & u & E & O) & R). rewrite E in *. replace (c =? 93)%N with false by (destruct O as (_ & O & _); symmetry; now apply N.eqb_neq). rewrite R. reflexivity.
  - intros b Hb. split; [eexists; eexists; split; [reflexivity|split; [reflexivity|split; [discriminate|split; discriminate]]]|].
    intros rest [|f] _ Hf; [lia|]. change (u8 "{") with [123%N]. change (u8 "}") with [125%N]. cbn [app]. rewrite <- app_assoc. cbn [app scan_once].
    change (123 =? 34)%N with false. change (123 =? 123)%N with true. cbn iota. rewrite blank_solid; [reflexivity|exact Hb|]. exists 125%N, rest. split; reflexivity.
  - intros l t _ IH Hn. split; [eexists; eexists; split; [reflexivity|split; [reflexivity|split; [discriminate|split; discriminate]]]|].
    intros rest [|f] _ Hf; [lia|]. change (u8 "{") with [123%N] in *. change (u8 "}") with [125%N] in *. cbn [app length] in Hf. rewrite app_length in Hf. cbn [length] in Hf.
    cbn [app]. rewrite <- app_assoc. cbn [app scan_once]. change (123 =? 34)%N with false. change (123 =? 123)%N with true. cbn iota.
    destruct (IH rest f ltac:(lia)) as ((u & E) & R). rewrite E in *. change (34 =? 125)%N with false. cbn iota. rewrite R. cbn [bind fst snd]. rewrite dict_of_unique by exact Hn. reflexivity.
  - intros v t b1 b2 _ [(c & u & -> & O) IH] H1 H2 rest [|f] Hf; [lia|]. rewrite !app_length in Hf.
    assert (E : skip_space ((b1 ++ (c :: u) ++ b2) ++ 93%N :: rest) = (c :: u) ++ b2 ++ 93%N :: rest) by (rewrite <- !app_assoc; apply blank_solid; [exact H1|cbn [app]; now apply opens_solid]).
    rewrite E. split; [exists c, (u ++ b2 ++ 93%N :: rest); split; [reflexivity|exact O]|]. cbn [scan_items]. rewrite IH; [|apply delimited_blank; [exact H2|cbv; tauto]|lia].
    cbn [bind snd fst]. rewrite blank_solid; [reflexivity|exact H2|]. exists 93%N, rest. split; reflexivity.
  - intros v t l w b1 b2 _ [(c & u & -> & O) IH] H1 H2 _ IHl rest [|f] Hf; [lia|]. change (u8 ",") with [44%N] in *. rewrite !app_length in Hf. cbn [length] in Hf.
    assert (E : skip_space ((b1 ++ (c :: u) ++ b2 ++ [44%N] ++ w) ++ 93%N :: rest) = (c :: u) ++ b2 ++ 44%N :: w ++ 93%N :: rest)
      by (rewrite <- !app_assoc; cbn [app]; apply blank_solid; [exact H1|now apply opens_solid]).
    rewrite E. split; [exists c, (u ++ b2 ++ 44%N :: w ++ 93%N :: rest); split; [reflexivity|exact O]|]. cbn [scan_items]. rewrite IH; [|apply delimited_blank; [exact H2|cbv; tauto]|cbn [length]; lia].
    cbn [bind snd fst]. rewrite blank_solid; [|exact H2|exists 44%N; eexists; split; reflexivity]. change (44 =? 93)%N with false. change (44 =? 44)%N with true. cbn iota.
    destruct (IHl rest f ltac:(lia)) as (_ & R). rewrite R. reflexivity.
  - intros k kt v t b1 b2 b3 b4 Hk _ [(c & u & -> & O) IH] H1 H2 H3 H4 rest [|f] Hf; [lia|]. change (u8 """") with [34%N] in *. change (u8 ":") with [58%N] in *. rewrite !app_length in Hf. cbn [length] in Hf.
    assert (E : skip_space ((b1 ++ [34%N] ++ kt ++ [34%N] ++ b2 ++ [58%N] ++ b3 ++ (c :: u) ++ b4) ++ 125%N :: rest) = 34%N :: kt ++ 34%N :: b2 ++ 58%N :: b3 ++ (c :: u) ++ b4 ++ 125%N :: rest).
    { repeat (progress (cbn [app]; rewrite <- ?app_assoc)). apply blank_solid; [exact H1|]. exists 34%N; eexists; split; reflexivity. }
    rewrite E. split; [eexists; reflexivity|]. cbn [scan_members]. change (negb (34 =? 34)%N) with false. cbn iota. rewrite (chars_read k kt Hk) by lia. cbn [bind snd fst].
    rewrite (blank_solid b2); [|exact H2|exists 58%N; eexists; split; reflexivity]. change (negb (58 =? 58)%N) with false. cbn iota.
    rewrite (blank_solid b3); [|exact H3|cbn [app]; now apply opens_solid]. rewrite IH; [|apply delimited_blank; [exact H4|cbv; tauto]|cbn [length]; lia]. cbn [bind snd fst].
    rewrite (blank_solid b4); [reflexivity|exact H4|]. exists 125%N, rest. split; reflexivity.
  - intros k kt v t l w b1 b2 b3 b4 Hk _ [(c & u & -> & O) IH] H1 H2 H3 H4 _ IHl rest [|f] Hf; [lia|]. change (u8 """") with [34%N] in *. change (u8 ":") with [58%N] in *. change (u8 ",") with [44%N] in *. rewrite !app_length in Hf. cbn [length] in Hf.
    assert (E : skip_space ((b1 ++ [34%N] ++ kt ++ [34%N] ++ b2 ++ [58%N] ++ b3 ++ (c :: u) ++ b4 ++ [44%N] ++ w) ++ 125%N :: rest) = 34%N :: kt ++ 34%N :: b2 ++ 58%N :: b3 ++ (c :: u) ++ b4 ++ 44%N :: w ++ 125%N :: rest).
    { repeat (progress (cbn [app]; rewrite <- ?app_assoc)). apply blank_solid; [exact H1|]. exists 34%N; eexists; split; reflexivity. }
    rewrite E. split; [eexists; reflexivity|]. cbn [scan_members]. change (negb (34 =? 34)%N) with false. cbn iota. rewrite (chars_read k kt Hk) by lia. cbn [bind snd fst].
    rewrite (blank_solid b2); [|exact H2|exists 58%N; eexists; split; reflexivity]. change (negb (58 =? 58)%N) with false. cbn iota.
    rewrite (blank_solid b3); [|exact H3|cbn [app]; now apply opens_solid]. rewrite IH; [|apply delimited_blank; [exact H4|cbv; tauto]|cbn [length]; lia]. cbn [bind snd fst].
    rewrite (blank_solid b4); [|exact H4|exists 44%N; eexists; split; reflexivity]. change (44 =? 125)%N with false. change (44 =? 44)%N with true. cbn iota.
    destruct (IHl rest f ltac:(lia)) as (_ & R). rewrite R. reflexivity.
Qed.
Theorem load_text io v t b1 b2 : json_text io v t -> blank b1 -> blank b2 -> json_load io (b1 ++ t ++ b2) = Ok v.
Proof.
  intros H H1 H2. destruct (proj1 (texts_read io) v t H) as [(c & u & -> & O) R]. unfold json_load.
  rewrite blank_solid; [|exact H1|cbn [app]; now apply opens_solid]. rewrite R; [|destruct H2 as [|d b2 Hd _]; [now left|apply delimited_cons; unfold delimiter; cbn [In] in *; tauto]|rewrite !app_length; lia].
  cbn [bind snd fst]. rewrite <- (app_nil_r b2), blank_space by exact H2. reflexivity.
Qed.
