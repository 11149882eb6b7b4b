(* Lists of identifiers, read forwards. *)
From Coq Require Import Lia.
From Verif Require Import PyBase PyBaseFacts UnicodeAlnum NumModel IdModel LineModel DateModel RefModel TreeModel StructModel SemModel GramModel GramSpec PegModel PegSpec PegSpec2 PegProofs PegProofs2 PegProofs7 PegProofs10 PegProofs14 PegProofs22 PegProofs23 PegProofs24 PegProofs25 PegProofs26 PegProofs27 PegProofs28 PegProofs29 PegProofs30 PegProofs31 CiteSpec.
Local Open Scope Z_scope.

(** * How a list begins *)

(* as [begins], but a dot may be followed by anything that makes no act *)
Inductive starts : pystr -> Prop :=
| st_digits n z : digits n -> match z with c :: _ => c <> 46%N /\ c_09 c = false /\ isspace_chr c = false | [] => False end -> starts (n ++ z)
| st_dot n z : digits n -> (forall r, ws z <> u8 "évi" ++ r) -> starts (n ++ 46%N :: z)
| st_open c z : c_09 c = true -> starts (40%N :: c :: z)
| st_letter c z : is_small c -> In (hd 0%N z) (u8 ")−–-") -> starts (c :: z)
| st_letters c d z : is_small c -> is_small d -> In (hd 0%N z) (u8 ")−–-") -> starts (c :: d :: z).
Lemma begins_starts s : begins s -> starts s.
Proof.
  intros [n z D Z|n a z D A A'|c z C|c z C Z|c d z C D Z]; try (constructor; assumption). apply st_dot; [exact D|]. intros r H.
  change (ws (32%N :: a :: z)) with (ws (a :: z)) in H. rewrite ws_solid_head in H by exact A'. injection H as H _. contradiction.
Qed.
Lemma item_starts t p x s : item_written t p x -> (forall r, ws s <> u8 "évi" ++ r) -> starts (x ++ s).
Proof.
  intros W E.
  assert (L : forall i z, letter_shape i \/ sub_letter i -> In (hd 0%N z) (u8 ")−–-") -> starts (i ++ z)).
  { intros i z [[(c & -> & C)|[->| ->]]|(c & l & -> & C & M)] Z.
    - now apply st_letter.
    - apply st_letters; [unfold is_small; lia|unfold is_small; lia|exact Z].
    - apply st_letters; [unfold is_small; lia|unfold is_small; lia|exact Z].
    - destruct M as [|d D]; [now apply st_letter|now apply st_letters]. }
  assert (P : forall i, paragraph_shape i -> exists c v, i = c :: v /\ c_09 c = true).
  { intros i (n & l & -> & D & _). destruct (digits_head n D) as (d & v & -> & F). exists d, (v ++ l). auto. }
  assert (M : forall i z, article_shape i \/ point_number i \/ digits i -> z = 46%N :: s \/ (exists d y, z = d :: y /\ is_dash d) -> starts (i ++ z)).
  { intros i z I Z. apply number_part in I as (n & y & -> & D & Y). rewrite <- app_assoc. destruct y as [|c y]; [cbn [app]|apply st_digits; [exact D|exact Y]].
    destruct Z as [->|(d & y & -> & F)]; [now apply st_dot|]. apply st_digits; [exact D|]. apply dash_chr in F. tauto. }
  destruct W as [i I|i d j I J D]; destruct t; cbn [one_text range_text part_id] in *; rewrite <- ?app_assoc; cbn [app].
  all: try (destruct (P i I) as (c & v & -> & C); now apply st_open).
  all: try (apply L; [tauto|cbn; tauto]).
  all: try (apply L; [tauto|destruct D as [<-|[<-|[<-|[]]]]; cbn; tauto]).
  all: try (apply M; [tauto|left; reflexivity]).
  all: apply M; [tauto|right; eexists; eexists; split; [reflexivity|exact D]].
Qed.
Lemma separator_evi p t : separator p -> forall r, ws (p ++ t) <> u8 "évi" ++ r.
Proof. intros (x & a & X & A & ->) r. rewrite <- app_assoc. repeat (destruct X as [<-|X]; [discriminate|]). destruct X. Qed.
Lemma items_starts t k x items s : items_written t k x items -> (forall r, ws s <> u8 "évi" ++ r) -> starts (x ++ s).
Proof.
  intros W E. destruct W as [k p x W|k p x sep y l W S _]; [now apply (item_starts t p)|]. rewrite <- !app_assoc. apply (item_starts t p); [exact W|now apply separator_evi].
Qed.
Lemma starts_opens s : starts s -> opens s /\ ws s = s.
Proof.
  intros [n z D Z|n z D Z|c z C|c z C Z|c d z C D Z].
  - apply begins_opens. now constructor.
  - destruct (digits_head n D) as (c & n' & -> & C). cbn [app]. assert (S : isspace_chr c = false) by now apply digit_space. split; [|now apply ws_solid_head]. right. exists c, (n' ++ 46%N :: z).
    split; [reflexivity|]. split; [exact S|]. split; [intros ->; discriminate|]. split; [intros X; apply dash_chr in X; destruct X as (_ & X & _); congruence|]. split; intros r [= -> _]; discriminate.
  - apply begins_opens. now constructor.
  - apply begins_opens. now constructor.
  - apply begins_opens. now apply bg_letters.
Qed.
Lemma starts_no_act total s : starts s -> g_act_reference total s = None.
Proof.
  intros B. destruct (starts_opens s B) as [_ E]. destruct B as [n z D Z|n z D Z|c z C|c z C Z|c d z C D Z]; try (apply begins_no_act; constructor; assumption).
  unfold g_act_reference, p_rule. rewrite E. rewrite or_no.
  - apply bind_no. unfold g_act_id. apply (map_no (fun x => (fst (fst x), snd (fst x), snd x))). apply span_no. rewrite E.
    rewrite (bind_yes _ _ _ n (46%N :: z)); [|now apply number_yes]. rewrite (bind_yes _ _ _ _ _ (tok_dot _)). apply bind_no, tok_none. exact Z.
  - apply bind_no, span_no. rewrite E. destruct (g_abbreviation_rule (n ++ 46%N :: z)) as [[x r]|] eqn:G; [|reflexivity]. exfalso. apply abbreviation_spells in G as [F (c & w & e & -> & C & _)]. rewrite E in F.
    destruct (digits_head n D) as (c' & n' & -> & C'). injection F as -> _. apply capital_range in C. unfold c_09 in C'. lia.
Qed.
Lemma starts_quote s : starts s -> lc s <> 8222%N.
Proof.
  intros [n z D Z|n z D Z|c z C|c z C Z|c d z C D Z]; try (apply begins_quote; constructor; assumption).
  destruct (digits_head n D) as (c' & n' & -> & C'). cbn [app]. rewrite lc_solid by now apply digit_space. intros ->. discriminate.
Qed.
Lemma digits_conjunction n z : digits n -> p_toks conjunctions (n ++ z) = None /\ g_az (n ++ z) = None.
Proof.
  intros N. destruct (digits_head n N) as (c & m & -> & C). cbn [app]. assert (S : isspace_chr c = false) by now apply digit_space. split.
  - apply toks_no. rewrite lc_solid by exact S. repeat constructor; intros ->; discriminate C.
  - unfold g_az, p_rule, p_re. rewrite ws_solid_head by exact S. cbn -[N.eqb]. destruct (N.eqb_spec 97 c) as [<-|Q]; [discriminate C|reflexivity].
Qed.
Lemma starts_conjunction t : starts t -> p_toks conjunctions t = None /\ g_az t = None.
Proof. intros [n z D Z|n z D Z|c z C|c z C Z|c d z C D Z]; try (apply begins_conjunction; constructor; assumption). now apply digits_conjunction. Qed.
Lemma starts_bracket t : starts t -> no_bracket (u8 " " ++ t).
Proof.
  intros [n z D Z|n z D Z|c z C|c z C Z|c d z C D Z]; try (apply begins_bracket; constructor; assumption).
  left. destruct (digits_head n D) as (c & r & -> & C). change (lc (u8 " " ++ (c :: r) ++ 46%N :: z)) with (lc (c :: r ++ 46%N :: z)). rewrite lc_solid by now apply digit_space. intros ->. discriminate C.
Qed.
Lemma starts_no_more t : starts t -> no_more (u8 " " ++ t).
Proof.
  intros B. destruct (starts_opens t B) as [O _]. intros e r I H. destruct O as [->|(c & z & -> & _ & _ & _ & H1 & H2)].
  - destruct I as [<-|[<-|[<-|[<-|[]]]]]; discriminate H.
  - destruct I as [<-|[<-|[<-|[<-|[]]]]]; try discriminate H; injection H as H H'; [apply (H1 r)|apply (H2 r)]; now rewrite H, H'.
Qed.
Lemma separator_listed p t : separator p -> starts t -> exists r, g_separator (p ++ t) = Some (tt, r) /\ ws r = t.
Proof.
  intros (x & a & X & A & ->) B. destruct (starts_conjunction t B) as [N Z]. destruct (starts_opens t B) as [_ E].
  assert (K : p_toks conjunctions (a ++ t) = None) by (repeat (destruct A as [<-|A]; [first [exact N|reflexivity]|]); destruct A).
  destruct (list_separator_yes x (a ++ t) X K) as (y & Y).
  assert (AZ : exists o r, p_opt g_az (32%N :: a ++ t) = Some (o, r) /\ ws r = t).
  { unfold g_az in *. repeat (destruct A as [<-|A]; [|]); [| | |destruct A].
    - exists None, (32%N :: t). split; [|exact E]. apply opt_no. now rewrite rule_space.
    - eexists. exists t. split; [|exact E]. reflexivity.
    - eexists. exists t. split; [|exact E]. reflexivity. }
  destruct AZ as (o & r & O & R). exists r. split; [|exact R]. unfold g_separator. replace ((x ++ u8 " " ++ a) ++ t) with (x ++ 32%N :: a ++ t) by (now rewrite <- !app_assoc).
  erewrite bind_yes; [reflexivity|]. apply opt_yes. rewrite (bind_yes _ _ _ _ _ Y). exact O.
Qed.
Lemma separator_lc p t : separator p -> In (lc (p ++ t)) (u8 ",;évi").
Proof. intros (x & a & X & A & ->). rewrite <- app_assoc. repeat (destruct X as [<-|X]; [cbn; tauto|]). destruct X. Qed.
Lemma separator_after t p s : separator p -> no_dash_after t (p ++ s).
Proof.
  intros P. apply (separator_lc p s) in P. split; [unfold is_dash; repeat (destruct P as [<-|P]; [cbn; intuition discriminate|]); destruct P|].
  intros _ z r Z. exfalso. rewrite sign_no in Z; [discriminate|]. repeat (destruct P as [<-|P]; [discriminate|]). destruct P.
Qed.
Section Total.
Variable total : Z.

(** * A list *)

(* an item and its place *)
Definition says_at (a : addition) (z : (list pystr * list pystr) * span + list pystr * span) : Prop :=
  match z with
  | inr (l, sp) => ad_data a = RId (concat l) /\ sp = (ad_start a, ad_end a)
  | inl ((i, j), sp) => ad_data a = RRange (concat i) (concat j) /\ sp = (ad_start a, ad_end a)
  end.
Definition one_item (t : part_type) := x <~ item_parser total t ;; g_separator ;~ p_ret x.
Lemma item_ws t s : item_parser total t (ws s) = item_parser total t s.
Proof. unfold item_parser, p_or, p_map, p_bind, p_span. now rewrite ws_idem. Qed.
Lemma item_at t p x s : item_written t p x -> no_dash_after t s ->
  exists y, item_parser total t (x ++ s) = Some (y, s) /\ says_at (mk_add t p (pos_of total (x ++ s)) (pos_of total s)) y.
Proof.
  intros W N. pose proof (solid_item t p x s W) as E. destruct W as [i I|i d j I J D]; unfold item_parser.
  - destruct (single_reads t i s I) as (l & R & C). rewrite or_no. { eexists. split; [apply map_yes, span_yes; rewrite E; exact R|]. cbn. rewrite E, C. auto. }
    apply map_no, span_no. rewrite E. now apply not_a_range.
  - destruct (range_reads t i d j s I J D) as (a & b & R & A & B). eexists. split; [apply or_yes, map_yes, span_yes; rewrite E; exact R|]. cbn. rewrite E, A, B. auto.
Qed.
(* what comes after a list *)
Definition list_end (t : part_type) (s : pystr) : Prop :=
  no_dash_after t s /\ g_separator s = Some (tt, s) /\ item_parser total t s = None /\ forall r, ws s <> u8 "évi" ++ r.
Lemma rounds_end t s : item_parser total t s = None -> forall n, p_rounds n (one_item t) s = ([], s).
Proof. intros H n. destruct n; [reflexivity|]. cbn [p_rounds]. unfold one_item. now rewrite bind_no. Qed.
Lemma size_app a b : size (a ++ b) = size a + size b. Proof. unfold size. rewrite app_length. lia. Qed.
Lemma pos_app a b : pos_of total (a ++ b) = pos_of total b - size a. Proof. unfold pos_of, size. rewrite app_length. lia. Qed.
Lemma item_nonempty t p x : item_written t p x -> (0 < length x)%nat.
Proof.
  intros W. destruct W; destruct t; cbn [one_text range_text]; rewrite ?app_length; cbn [length]; lia.
Qed.
Lemma first_item t k x items s : items_written t k x items -> list_end t s -> pos_of total (x ++ s) = k ->
  exists a z rest l s1, items = a :: l /\ one_item t (x ++ s) = Some (z, s1) /\ says_at a z /\
    ((l = [] /\ s1 = s) \/ (items_written t (pos_of total (rest ++ s)) rest l /\ ws s1 = rest ++ s /\ (length s1 < length (x ++ s))%nat)).
Proof.
  intros W (E1 & E2 & E3 & E4) K. destruct W as [k p x W|k p x sep y l W S L].
  - destruct (item_at t p x s W E1) as (z & Z & Y). exists (mk_add t p k (k + size x)), z, [], [], s. split; [reflexivity|]. split; [unfold one_item; now rewrite (bind_yes _ _ _ _ _ Z), (bind_yes _ _ _ _ _ E2)|].
    split; [|now left]. rewrite K in Y. rewrite pos_app in K. replace (k + size x) with (pos_of total s) by lia. exact Y.
  - rewrite <- !app_assoc in *. destruct (item_at t p x (sep ++ y ++ s) W (separator_after t sep _ S)) as (z & Z & Y).
    destruct (separator_listed sep (y ++ s) S (items_starts _ _ _ _ _ L E4)) as (s1 & G & R). exists (mk_add t p k (k + size x)), z, y, l, s1.
    split; [reflexivity|]. split; [unfold one_item; now rewrite (bind_yes _ _ _ _ _ Z), (bind_yes _ _ _ _ _ G)|]. rewrite K in Y. rewrite !pos_app in *. split; [replace (k + size x) with (pos_of total s - size y - size sep) by lia; exact Y|].
    right. split; [replace (pos_of total s - size y) with (k + size x + size sep) by lia; exact L|]. split; [exact R|].
    destruct (takes_separator _ _ _ G) as (v & V). apply (f_equal (@length BinNums.N)) in V. rewrite (app_length v) in V. rewrite (app_length x). pose proof (item_nonempty _ _ _ W). lia.
Qed.
Lemma rounds_items t s items : list_end t s -> forall x k s1 n, items_written t k x items -> pos_of total (x ++ s) = k -> ws s1 = x ++ s -> (length s1 <= n)%nat ->
  exists zs, p_rounds n (one_item t) s1 = (zs, s) /\ Forall2 says_at items zs.
Proof.
  intros E. induction items as [|a items IH]; intros x k s1 n W K R N; [inversion W|].
  destruct (first_item t k x (a :: items) s W E K) as (a' & z & y & l & s2 & [= <- <-] & O & Y & C).
  assert (O' : one_item t s1 = Some (z, s2)).
  { unfold one_item, p_bind in *. rewrite <- item_ws, R. exact O. }
  pose proof (ws_length s1) as LL. rewrite R in LL. assert (P : (0 < length (x ++ s))%nat) by (rewrite app_length; destruct W as [? ? ? W|? ? ? ? ? ? W]; apply item_nonempty in W; rewrite ?app_length; lia).
  destruct n as [|n]; [lia|]. cbn [p_rounds]. rewrite O'. destruct C as [[-> ->]|(W' & R' & N')].
  - rewrite rounds_end by apply E. exists [z]. split; [reflexivity|]. repeat constructor. exact Y.
  - destruct (IH y _ s2 n W' eq_refl R' ltac:(lia)) as (zs & -> & F). exists (z :: zs). split; [reflexivity|]. now constructor.
Qed.
Lemma many_items t k x items s : items_written t k x items -> list_end t s -> pos_of total (x ++ s) = k ->
  exists zs, p_many1 (one_item t) (x ++ s) = Some (zs, s) /\ Forall2 says_at items zs.
Proof.
  intros W E K. destruct (first_item t k x items s W E K) as (a & z & y & l & s1 & -> & O & Y & C). unfold p_many1. rewrite (bind_yes _ _ _ _ _ O). unfold p_bind, p_many. destruct C as [[-> ->]|(W' & R' & N')].
  - rewrite rounds_end by apply E. exists [z]. split; [reflexivity|]. repeat constructor. exact Y.
  - destruct (rounds_items t s l E y _ s1 (length s1) W' eq_refl R' (le_n _)) as (zs & -> & F). exists (z :: zs). split; [reflexivity|]. now constructor.
Qed.
(* the part that is read *)
Definition says_items (t : part_type) (items : list addition) (g : g_part) : Prop :=
  gp_type g = t /\ additions_of_part g = filter is_one items ++ filter (fun x => negb (is_one x)) items.
Lemma items_type t k x items : items_written t k x items -> Forall (fun a => ad_type a = t) items.
Proof. intros W. induction W; repeat constructor. assumption. Qed.
Lemma collected_items t items zs : Forall2 says_at items zs -> Forall (fun a => ad_type a = t) items ->
  says_items t items (mk_gpart t
    (flat_map (fun x => match x with inr (i, sp) => [mk_gsingle i sp] | inl _ => [] end) zs)
    (flat_map (fun x => match x with inl ((a, b), sp) => [mk_grange a b sp] | inr _ => [] end) zs)).
Proof.
  intros F T. split; [reflexivity|]. unfold additions_of_part. cbn [gp_type gp_singles gp_ranges]. f_equal.
  - induction F as [|a z items zs Y F IH]; [reflexivity|]. apply Forall_cons_iff in T as [A T]. cbn [flat_map filter]. destruct z as [[[i j] sp]|[l sp]]; destruct Y as [D ->]; unfold is_one; rewrite D; cbn [app map]; [now apply IH|].
    rewrite IH by exact T. f_equal. destruct a as [t' d s e]. cbn in *. subst. reflexivity.
  - induction F as [|a z items zs Y F IH]; [reflexivity|]. apply Forall_cons_iff in T as [A T]. cbn [flat_map filter]. destruct z as [[[i j] sp]|[l sp]]; destruct Y as [D ->]; unfold is_one; rewrite D; cbn [app map negb]; [|now apply IH].
    rewrite IH by exact T. f_equal. destruct a as [t' d s e]. cbn in *. subst. reflexivity.
Qed.
(* before a unit a list ends *)
Lemma unit_ends t t' e s : unit_parser t (u8 " " ++ unit_text t' ++ e ++ s) = None \/ (t = t' /\ unit_ending t e /\ gap s /\ ~ is_dash (lc s)) -> list_end t (u8 " " ++ unit_text t' ++ e ++ s).
Proof.
  intros H. set (s0 := u8 " " ++ unit_text t' ++ e ++ s) in *. assert (NL : lc s0 = hd 0%N (unit_text t')) by apply unit_lc. split; [split|split; [|split]].
  - rewrite NL. destruct t'; cbn; intuition discriminate.
  - intros -> z r Z. destruct H as [H|(<- & E & G & N)]; [cbn [unit_parser] in H; congruence|]. destruct (unit_reads PArticle e s E G) as (y & Y). fold s0 in Y. cbn [unit_parser] in Y. rewrite Y in Z. now injection Z as _ <-.
  - apply separator_no. rewrite NL. destruct t'; cbn; intuition discriminate.
  - assert (UI : In (unit_text t') [u8 "§"; u8 "bekezdés"; u8 "pont"; u8 "alpont"]) by (destruct t'; cbn; tauto). pose proof (unit_no_item t (unit_text t') UI (e ++ s)) as [UA UB].
    assert (V : ws s0 = unit_text t' ++ e ++ s) by (destruct t'; reflexivity). apply item_no; rewrite V; assumption.
  - intros r. destruct t'; discriminate.
Qed.
Lemma items_solid t k x items s : items_written t k x items -> ws (x ++ s) = x ++ s.
Proof. intros W. destruct W as [k p x W|k p x sep y l W S _]; [|rewrite <- !app_assoc]; eapply solid_item; exact W. Qed.
Lemma list_reads t k x items e s : items_written t k x items -> unit_ending t e -> gap s -> ~ is_dash (lc s) -> pos_of total (x ++ u8 " " ++ unit_text t ++ e ++ s) = k ->
  exists g, part_parser total t (x ++ u8 " " ++ unit_text t ++ e ++ s) = Some (g, s) /\ says_items t items g.
Proof.
  intros W E G N K. destruct (unit_reads t e s E G) as (y & Y). destruct (many_items t k x items _ W (unit_ends t t e s (or_intror (conj eq_refl (conj E (conj G N))))) K) as (zs & M & F).
  rewrite part_parser_eq. unfold g_part_rule, p_rule. rewrite (items_solid _ _ _ _ _ W). fold (item_parser total t). fold (one_item t).
  rewrite (bind_yes _ _ _ _ _ M), (bind_yes _ _ _ _ _ Y). eexists. split; [reflexivity|]. apply collected_items; [exact F|eapply items_type; exact W].
Qed.

(** * Lists of other kinds *)

(* numbers of points read as numbers of articles, and so on *)
Definition like (t t' : part_type) : Prop := forall p x, item_written t' p x -> item_written t p x \/ forall s, item_parser total t (x ++ s) = None.
Lemma digits_like t : In t [PArticle; PNumericPoint] -> like t PNumericSubpoint.
Proof.
  intros T p x W. left. destruct W as [i I|i d j I J D]; cbn [part_id] in *.
  - destruct T as [<-|[<-|[]]]; [apply (iw_one PArticle)|apply (iw_one PNumericPoint)]; now constructor.
  - destruct T as [<-|[<-|[]]]; [apply (iw_range PArticle)|apply (iw_range PNumericPoint)]; try (constructor; assumption); assumption.
Qed.
Lemma point_like : like PArticle PNumericPoint.
Proof.
  assert (NOTHING : forall n r, digits n -> lettered r -> range_parser PArticle (n ++ r) = None /\ single_parser PArticle (n ++ r) = None).
  { intros n r D L. pose proof (lettered_facts r L) as [F1 F2]. cbn [range_parser single_parser]. rewrite !(bind_yes _ _ _ _ _ (lettered_article n r D L)). split.
    - rewrite (bind_yes _ _ _ None r) by (apply opt_no, bind_no; now apply tok_no). apply bind_no. now apply dash_no.
    - apply bind_no. now apply tok_no. }
  assert (C : forall i, point_number i -> digits i \/ forall s, exists n r, i ++ s = n ++ r /\ digits n /\ lettered r).
  { intros i [n D|n c D C|n c D C]; [now left|right|right]; intros s; exists n.
    - exists (c :: s). rewrite <- app_assoc. split; [reflexivity|]. split; [exact D|]. exists c, s. auto.
    - exists (47%N :: c :: s). rewrite <- app_assoc. split; [reflexivity|]. split; [exact D|]. exists c, s. auto. }
  intros p x W. assert (S : forall s, ws (x ++ s) = x ++ s) by (intros s; eapply solid_item; exact W).
  assert (NO : (forall s, range_parser PArticle (x ++ s) = None /\ single_parser PArticle (x ++ s) = None) -> forall s, item_parser total PArticle (x ++ s) = None).
  { intros H s. destruct (H s) as [A B]. apply item_no; rewrite S; assumption. }
  destruct W as [i I|i d j I J D]; cbn [one_text range_text part_id] in *.
  - destruct (C i I) as [I'|L]; [left; apply (iw_one PArticle); now constructor|right; apply NO]. intros s. rewrite <- !app_assoc. destruct (L (u8 "." ++ s)) as (n & r & -> & N & R). now apply NOTHING.
  - destruct (C i I) as [I'|L]; [|right; apply NO; intros s; rewrite <- !app_assoc; destruct (L ([d] ++ j ++ u8 "." ++ s)) as (n & r & -> & N & R); now apply NOTHING].
    destruct (C j J) as [J'|L]; [left; apply (iw_range PArticle); [now constructor|now constructor|exact D]|right; apply NO]. intros s. rewrite <- !app_assoc. destruct (L (u8 "." ++ s)) as (n & r & -> & N & R). cbn [app].
    pose proof (lettered_facts r R) as [F1 F2].
    destruct (article_reads i (d :: n ++ r) (as_plain i I') (stop_dash _ _ D)) as (a & A & _). cbn [range_parser single_parser]. rewrite !(bind_yes _ _ _ _ _ A). split.
    + rewrite (bind_yes _ _ _ None (d :: n ++ r)) by (apply opt_no, bind_no, tok_no; rewrite lc_dash by exact D; now apply dash_chr in D).
      rewrite (bind_yes _ _ _ _ _ (dash_yes d _ D)), (bind_yes _ _ _ _ _ (lettered_article n r N R)). apply bind_no. now apply tok_no.
    + apply bind_no, tok_no. rewrite lc_dash by exact D. now apply dash_chr in D.
Qed.
Lemma item_digit t p x s : item_written t p x -> In t [PArticle; PNumericPoint; PNumericSubpoint] -> c_09 (lc (x ++ s)) = true.
Proof. intros W T. pose proof (item_class t p x s W) as C. destruct T as [<-|[<-|[<-|[]]]]; exact C. Qed.
Lemma unit_digit t s : c_09 (lc s) = true -> unit_parser t s = None.
Proof. intros C. destruct t; cbn [unit_parser]; [apply sign_no; intros E; rewrite E in C; discriminate|..]; (apply unit_no; intros E; rewrite E in C; discriminate). Qed.
Lemma rounds_other t t' s items : like t t' -> In t' [PArticle; PNumericPoint; PNumericSubpoint] -> list_end t s -> unit_parser t s = None ->
  forall x k s1 n, items_written t' k x items -> ws s1 = x ++ s -> exists l r, p_rounds n (one_item t) s1 = (l, r) /\ unit_parser t r = None.
Proof.
  intros L T E U. induction items as [|a items IH]; intros x k s1 n W R; [inversion W|].
  assert (D : unit_parser t s1 = None).
  { apply unit_digit. rewrite <- lc_ws, R. destruct W as [k p x W|k p x sep y l W S _]; rewrite <- ?app_assoc; eapply item_digit; eassumption. }
  destruct n as [|n]; [exists [], s1; auto|]. cbn [p_rounds]. unfold one_item at 1. inversion W as [k' p x' W' E1 E2 E3|k' p x' sep y l W' S W2 E1 E2 E3]; subst.
  - destruct (L p x W') as [X|X].
    + destruct (item_at t p x s X (proj1 E)) as (z & Z & _). rewrite <- R, item_ws in Z. rewrite (bind_yes _ _ _ _ _ Z), (bind_yes _ _ _ _ _ (proj1 (proj2 E))). cbn [p_ret]. rewrite rounds_end by apply E. exists [z], s. auto.
    + specialize (X s). rewrite <- R, item_ws in X. rewrite bind_no by exact X. exists [], s1. auto.
  - rewrite <- !app_assoc in R. destruct (L p x' W') as [X|X].
    + destruct (item_at t p x' (sep ++ y ++ s) X (separator_after t sep _ S)) as (z & Z & _). rewrite <- R, item_ws in Z.
      destruct (separator_listed sep (y ++ s) S (items_starts _ _ _ _ _ W2 (proj2 (proj2 (proj2 E))))) as (s2 & G & R2). rewrite (bind_yes _ _ _ _ _ Z), (bind_yes _ _ _ _ _ G). cbn [p_ret].
      destruct (IH y _ s2 n W2 R2) as (l & r & -> & F). exists (z :: l), r. auto.
    + specialize (X (sep ++ y ++ s)). rewrite <- R, item_ws in X. rewrite bind_no by exact X. exists [], s1. auto.
Qed.
Lemma rounds_many1 {A} (p : parser A) s n l r : p_rounds (S n) p s = (l, r) -> p s = None \/ exists x s1 l', p s = Some (x, s1) /\ p_rounds n p s1 = (l', r) /\ l = x :: l'.
Proof. cbn [p_rounds]. destruct (p s) as [[x s1]|]; [|now left]. destruct (p_rounds n p s1) as [l' r'] eqn:E. intros [= <- <-]. right. exists x, s1, l'. auto. Qed.
Lemma list_other t t' k x items e s : like t t' -> In t' [PArticle; PNumericPoint; PNumericSubpoint] -> hd 0%N (unit_text t) <> hd 0%N (unit_text t') ->
  items_written t' k x items -> part_parser total t (x ++ u8 " " ++ unit_text t' ++ e ++ s) = None.
Proof.
  intros L T H W. set (s0 := u8 " " ++ unit_text t' ++ e ++ s). assert (UN : unit_parser t s0 = None) by now apply unit_foreign. assert (E : list_end t s0) by (apply unit_ends; now left).
  rewrite part_parser_eq. unfold g_part_rule, p_rule. rewrite (items_solid _ _ _ _ _ W). fold (item_parser total t). fold (one_item t). unfold p_many1.
  destruct (one_item t (x ++ s0)) as [[z s1]|] eqn:O; [|now rewrite (bind_no _ _ _ (bind_no _ _ _ O))].
  destruct (rounds_other t t' s0 items L T E UN x k (x ++ s0) (S (length s1)) W (items_solid _ _ _ _ _ W)) as (l & r & R & F).
  apply rounds_many1 in R as [R|(z' & s2 & l' & O' & R & ->)]; [congruence|]. rewrite O in O'. injection O' as <- <-.
  erewrite bind_yes; [|rewrite (bind_yes _ _ _ _ _ O); unfold p_bind, p_many; rewrite R; reflexivity]. now rewrite bind_no.
Qed.
Definition few (t : part_type) (items : list addition) : Prop := t = PAlphabeticSubpoint -> length items = 1%nat.
Lemma list_passed t t' k x items e s : passes t t' -> items_written t' k x items -> few t' items -> unit_ending t' e -> part_parser total t (x ++ u8 " " ++ unit_text t' ++ e ++ s) = None.
Proof.
  intros H W O Ue.
  assert (C : match t' with PParagraph => lc (x ++ u8 " " ++ unit_text t' ++ e ++ s) = 40%N | PAlphabeticPoint | PAlphabeticSubpoint => c_az (lc (x ++ u8 " " ++ unit_text t' ++ e ++ s)) = true | _ => c_09 (lc (x ++ u8 " " ++ unit_text t' ++ e ++ s)) = true end).
  { destruct W as [k p x W|k p x sep y l W S _]; rewrite <- ?app_assoc; eapply item_class; exact W. }
  assert (AZ : forall c, c_az c = true -> c_09 c = false /\ c <> 40%N) by (unfold c_az, c_09; intros; split; lia).
  assert (DG : forall c, c_09 c = true -> c_az c = false /\ c <> 40%N) by (unfold c_az, c_09; intros; split; lia).
  destruct t; cbn [passes] in H; destruct t'; try (destruct H; fail); try destruct H.
  all: try (apply part_nothing; apply nothing_numeric; [rewrite lc_ws; first [now apply AZ|rewrite C; reflexivity]|cbn; tauto]).
  all: try (apply part_nothing; apply nothing_paragraph; rewrite lc_ws; first [now apply AZ|now apply DG]).
  all: try (apply part_nothing; apply nothing_letter; [rewrite lc_ws; now apply DG|cbn; tauto]).
  - eapply list_other; [apply point_like|cbn; tauto|discriminate|exact W].
  - eapply list_other; [apply digits_like; cbn; tauto|cbn; tauto|discriminate|exact W].
  - specialize (O eq_refl). destruct W as [k p x W|k p x sep y l W S W2]; [|destruct W2; discriminate O].
    pose proof (part_passed total PAlphabeticPoint PAlphabeticSubpoint p (x ++ u8 " " ++ unit_text PAlphabeticSubpoint ++ e) s I ltac:(exists x, e; auto)) as Q. rewrite <- !app_assoc in Q. exact Q.
  - eapply list_other; [apply digits_like; cbn; tauto|cbn; tauto|discriminate|exact W].
Qed.
End Total.
