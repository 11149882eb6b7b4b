(* Proofs about the converters: what each produces for its references, quotes and dates. *)
From Coq Require Import Lia.
From Coq Require Import ZifyBool ZifyNat ZifyN.
From Verif Require Import PyBase PyBaseFacts NumModel NumSpec NumProofs IdModel IdSpec IdProofs LineSpec DateModel DateSpec DateProofs
  RefModel RefSpec RefProofs TreeModel StructModel StructSpec StructProofs3 SemModel GramModel GramSpec GramProofs GramProofs2 GramProofs3.
Local Open Scope Z_scope.

(** * References times texts *)

Lemma mapM_const {A B} (f : A -> res B) l ys : mapM f l = Ok ys <-> Forall2 (fun x y => f x = Ok y) l ys.
Proof. apply mapM_ok. Qed.
Lemma flat_mapM_product {A B C} (f : A -> B -> C) (conv : A -> res (list C)) (ys : list B) l :
  (forall x, conv x = Ok (map (f x) ys)) -> flat_mapM conv l = Ok (flat_map (fun x => map (f x) ys) l).
Proof. intros H. induction l as [|x l IH]; [reflexivity|]. cbn [flat_mapM flat_map]. rewrite H. cbn [bind]. rewrite IH. reflexivity. Qed.

Lemma multiple_nonempty act refs l : convert_multiple_in_text_references act refs = Ok l -> refs <> [] -> l <> [].
Proof.
  intros H N E. subst l. destruct refs as [|r refs]; [now apply N|]. unfold convert_multiple_in_text_references in H. cbn [convert_multiple_loop] in H.
  apply bind_ok in H as (x & X & H). destruct (relative_chain _ x) as [out last] eqn:R. apply bind_ok in H as (y & _ & H). injection H as H.
  apply app_eq_nil in H as [H _]. subst out. apply convert_single_collects in X as (c & _ & X).
  assert (x <> []) by (rewrite X; apply collector_iter_nonempty; discriminate). destruct x as [|o x]; [contradiction|].
  cbn [relative_chain] in R. destruct (relative_chain _ x); discriminate.
Qed.

Lemma mapM_two {A B C} (f : A -> res B) (g : B -> C) (h : A -> res C) l zs :
  (forall x, h x = (y <- f x ;; Ok (g y))) -> mapM h l = Ok zs -> exists ys, mapM f l = Ok ys /\ zs = map g ys.
Proof.
  intros E. revert zs. induction l as [|x l IH]; intros zs H; cbn [mapM] in *.
  - injection H as <-. now exists [].
  - rewrite E in H. destruct (f x) as [y|e]; [|discriminate]. cbn [bind] in *. apply bind_ok in H as (r & R & H). injection H as <-.
    destruct (IH r R) as (ys & Y & ->). rewrite Y. cbn [bind]. now exists (y :: ys).
Qed.
Definition quote_pair (p : g_quote * g_quote) : res (pystr * pystr) :=
  x <- convert_quote_to_string (fst p) ;; y <- convert_quote_to_string (snd p) ;; Ok (x, y).
Lemma quote_pair_ok p t : quote_pair p = Ok t <-> quote_says (fst p) (fst t) /\ quote_says (snd p) (snd t).
Proof.
  destruct p as [p q], t as [s t]. unfold quote_pair. cbn [fst snd]. rewrite <- !quote_ok. split.
  - intros H. apply bind_ok in H as (x & X & H). apply bind_ok in H as (y & Y & H). injection H as <- <-. auto.
  - intros [-> ->]. reflexivity.
Qed.

Lemma flat_mapM_each {A B C} (f : A -> B -> C) (conv : A -> res (list C)) (Q : list B -> Prop) l out :
  (forall x cs, conv x = Ok cs -> exists ys, Q ys /\ cs = map (f x) ys) -> (forall a b, Q a -> Q b -> a = b) -> l <> [] ->
  flat_mapM conv l = Ok out -> exists ys, Q ys /\ out = flat_map (fun x => map (f x) ys) l.
Proof.
  intros H Un N E. destruct l as [|x l]; [contradiction|]. cbn [flat_mapM] in E. apply bind_ok in E as (cs & K & E). apply bind_ok in E as (r & R & E).
  injection E as <-. destruct (H x cs K) as (ys & Q1 & ->). exists ys. split; [exact Q1|]. cbn [flat_map]. f_equal. clear N.
  revert r R. induction l as [|z l IH]; intros r R; cbn [flat_mapM] in R; [injection R as <-; reflexivity|].
  apply bind_ok in R as (cs & C2 & R). apply bind_ok in R as (r2 & R2 & R). injection R as <-. destruct (H z cs C2) as (zs & Q2 & ->).
  rewrite (Un zs ys Q2 Q1). cbn [flat_map]. now rewrite (IH r2 R2).
Qed.

Theorem text_amendments a refs parts l : text_to_text a refs parts = Ok l -> refs <> [] ->
  exists act targets texts, get_act_id a = Ok act /\ convert_multiple_in_text_references (Some act) refs = Ok targets /\
    Forall2 (fun p t => quote_says (fst p) (fst t) /\ quote_says (snd p) (snd t)) parts texts /\
    l = flat_map (fun o => map (fun t => TextAmendment (or_reference o) (fst t) (snd t)) texts) targets.
Proof.
  intros H N. unfold text_to_text in H. apply bind_ok in H as (act & A & H). apply bind_ok in H as (targets & T & H).
  apply (flat_mapM_each (fun o t => TextAmendment (or_reference o) (fst t) (snd t)) _ (fun ys => mapM quote_pair parts = Ok ys)) in H as (texts & X & ->).
  - exists act, targets, texts. repeat split; auto. apply mapM_ok in X. clear - X. induction X as [|p t parts texts P X IH]; constructor; auto. now apply quote_pair_ok.
  - intros o cs C. eapply mapM_two in C as (ys & Y & ->); [exists ys; split; [exact Y|reflexivity]|]. intros [p q]. unfold quote_pair. cbn [fst snd].
    destruct (convert_quote_to_string p); [|reflexivity]. cbn [bind]. destruct (convert_quote_to_string q); reflexivity.
  - intros x y X Y. congruence.
  - eapply multiple_nonempty; eauto.
Qed.

Theorem repeals a refs texts l : repeal_to_repeal a refs texts = Ok l -> refs <> [] ->
  exists act targets said, get_act_id a = Ok act /\ convert_multiple_in_text_references (Some act) refs = Ok targets /\
    Forall2 quote_says texts said /\
    l = flat_map (fun o => match texts with
                           | [] => [Repeal (ARef (or_reference o)) None]
                           | _ => map (fun t => Repeal (ARef (or_reference o)) (Some t)) said
                           end) targets.
Proof.
  intros H N. unfold repeal_to_repeal in H. apply bind_ok in H as (act & A & H). apply bind_ok in H as (targets & T & H). destruct texts as [|q texts].
  - exists act, targets, []. split; [exact A|]. split; [exact T|]. split; [constructor|].
    rewrite (flat_mapM_product (fun o (_ : unit) => Repeal (ARef (or_reference o)) None) _ [tt]) in H by reflexivity. cbn [map] in H. congruence.
  - apply (flat_mapM_each (fun o t => Repeal (ARef (or_reference o)) (Some t)) _ (fun ys => mapM convert_quote_to_string (q :: texts) = Ok ys)) in H as (said & X & ->).
    + exists act, targets, said. repeat split; auto. apply mapM_ok in X. clear - X. induction X; constructor; auto. now apply quote_ok.
    + intros o cs C. eapply mapM_two in C as (ys & Y & ->); [exists ys; split; [exact Y|reflexivity]|]. reflexivity.
    + intros x y X Y. congruence.
    + eapply multiple_nonempty; eauto.
Qed.

(** * Act references and element references *)

Lemma is_act_spec o b : is_act_reference o = Ok b -> (b = true <-> names_act_only o).
Proof.
  unfold is_act_reference, last_component_with_type, names_act_only, no_parts. destruct o as [s e [act ar pa po su]]. cbn [or_reference r_act r_article r_paragraph r_point r_subpoint].
  destruct su as [|su|su su']; cbn [is_none negb].
  2,3: intros H; apply bind_ok in H as (c & C & H); apply bind_ok in C as (d & _ & C); injection C as <-; injection H as <-; split; [destruct d; discriminate|intros (x & X); discriminate].
  destruct po as [|po|po po']; cbn [is_none negb].
  2,3: intros H; apply bind_ok in H as (c & C & H); apply bind_ok in C as (d & _ & C); injection C as <-; injection H as <-; split; [destruct d; discriminate|intros (x & X); discriminate].
  destruct pa; cbn [is_none negb bind]; [|intros H; injection H as <-; split; [discriminate|intros (x & X); discriminate]..].
  destruct ar; cbn [is_none negb bind]; [|intros H; injection H as <-; split; [discriminate|intros (x & X); discriminate]..].
  destruct act as [act|]; cbn [bind]; intros H; injection H as <-.
  - split; [intros _; now exists act|reflexivity].
  - split; [discriminate|intros (x & X); discriminate].
Qed.
Theorem references_parted l acts others : act_references l = Ok acts -> element_references l = Ok others ->
  picks names_act_only (all_references l) acts others.
Proof.
  unfold act_references, element_references. generalize (all_references l). clear l. intros l. revert acts others.
  induction l as [|o l IH]; intros acts others A B; cbn [filterM] in *; [injection A as <-; injection B as <-; constructor|].
  apply bind_ok in A as (b & B1 & A). apply bind_ok in A as (r & R & A). apply bind_ok in B as (b' & B2 & B). apply bind_ok in B as (r' & R' & B).
  rewrite B1 in B2. cbn [bind] in B2. injection B2 as <-. pose proof (is_act_spec o b B1) as Sp. specialize (IH r r' R R').
  destruct b; cbn [negb] in *; injection A as <-; injection B as <-.
  - apply pk_in; [now apply Sp|exact IH].
  - apply pk_out; [|exact IH]. intros X. apply Sp in X. discriminate.
Qed.

(** * Dates *)

Theorem exact_date g y m d : date_written g y m d ->
  (supported (mk_date y m d) -> convert_exact_date g = Ok (mk_date y m d)) /\
  (~ supported (mk_date y m d) -> exists e, convert_exact_date g = Err e).
Proof.
  intros (Y & D & M & N). unfold convert_exact_date. rewrite (numeral_int _ _ Y). cbn [bind]. rewrite N, (proj1 (month_name_facts m M)). cbn [bind].
  rewrite (numeral_int _ _ D). cbn [bind]. split; intros H; [now apply Date_ok|]. destruct (Date_err y m d H) as [E|E]; eauto.
Qed.
Lemma count_text s n : s <> [] -> ordinal_of n s -> text_to_int_hun s = Ok n.
Proof. intros _ O. now apply ordinal_spec. Qed.
Theorem days_after f n : count_written (gf_as_number f) (gf_as_text f) n -> convert_after_publication_date f = Ok (EDaysAfterPublication n).
Proof.
  destruct f as [a b]. cbn [gf_as_number gf_as_text]. unfold convert_after_publication_date. cbn [gf_as_number gf_as_text]. intros H. inversion H as [s t m X|s m Ne X]; subst.
  - rewrite (numeral_int _ _ X). reflexivity.
  - destruct s as [|c s]; [contradiction|]. rewrite (count_text _ _ Ne X). reflexivity.
Qed.
Theorem day_after : convert_after_publication_date (mk_gafter None None) = Ok (EDaysAfterPublication 1).
Proof. reflexivity. Qed.
Theorem day_in_month g n m : count_written (gy_day_as_number g) (gy_day_as_text g) n ->
  (gy_month g = None /\ m = 1 \/ exists s, gy_month g = Some s /\ s <> [] /\ ordinal_of m s) ->
  convert_day_in_month g = Ok (EDayInMonthAfterPublication n m).
Proof.
  destruct g as [mo a b]. cbn [gy_month gy_day_as_number gy_day_as_text]. unfold convert_day_in_month. cbn [gy_month gy_day_as_number gy_day_as_text]. intros H M.
  assert (E : match mo with Some (c :: t) => text_to_int_hun (c :: t) | _ => Ok 1 end = Ok m).
  { destruct M as [[-> ->]|(s & -> & Ne & O)]; [reflexivity|]. destruct s as [|c s]; [contradiction|]. exact (count_text _ _ Ne O). }
  rewrite E. cbn [bind]. inversion H as [s t k X|s k Ne X]; subst.
  - rewrite (numeral_int _ _ X). reflexivity.
  - destruct s as [|c s]; [contradiction|]. rewrite (count_text _ _ Ne X). reflexivity.
Qed.
Theorem grammar_ordinals_read : Forall (fun p => text_to_int_hun (fst p) = Ok (snd p)) grammar_ordinals.
Proof. repeat constructor. Qed.

Theorem enforcements refs exact after day repeal l : enforcement_to_enforcement refs exact after day repeal = Ok l ->
  exists date rep targets,
    (forall d, exact = Some d -> exists x, convert_exact_date d = Ok x /\ date = EDate x) /\
    (forall f, exact = None -> after = Some f -> convert_after_publication_date f = Ok date) /\
    (forall d, exact = None -> after = None -> day = Some d -> convert_day_in_month d = Ok date) /\
    (match repeal with None => rep = None | Some d => exists x, convert_exact_date d = Ok x /\ rep = Some x end) /\
    convert_multiple_in_text_references None refs = Ok targets /\
    l = match refs with
        | [] => [EnforcementDate None date rep]
        | _ => map (fun o => EnforcementDate (Some (or_reference o)) date rep) targets
        end.
Proof.
  intros H. unfold enforcement_to_enforcement in H. apply bind_ok in H as (date & D & H). apply bind_ok in H as (rep & R & H).
  assert (T : exists targets, convert_multiple_in_text_references None refs = Ok targets /\ l = match refs with
        | [] => [EnforcementDate None date rep]
        | _ => map (fun o => EnforcementDate (Some (or_reference o)) date rep) targets
        end).
  { destruct refs as [|r refs]; [injection H as <-; now exists []|]. apply bind_ok in H as (t & T & H). injection H as <-. now exists t. }
  destruct T as (targets & T & ->). exists date, rep, targets. repeat split; auto.
  - intros d ->. apply bind_ok in D as (x & X & D). injection D as <-. eauto.
  - intros f -> ->. exact D.
  - intros d -> -> ->. exact D.
  - destruct repeal as [d|]; [|congruence]. apply bind_ok in R as (x & X & R). injection R as <-. eauto.
Qed.

(** * Parsed references *)

Theorem converted_reference act r l : convert_single_in_text_reference act r = Ok l -> reference_ok r ->
  in_order (fst (gr_span r)) (snd (gr_span r)) l /\
  (forall d, or_start (hd d l) = fst (gr_span r)) /\ (forall d, or_end (last l d) = snd (gr_span r)) /\
  (forall x, In x (additions_of r) -> exists o, In o l /\ mentions (nth_part (or_reference o) (level_of (ad_type x))) (ad_data x)) /\
  (forall o, In o l -> r_act (or_reference o) = act /\ forall k, (1 <= k)%nat -> comes_from (additions_of r) k (nth_part (or_reference o) k)).
Proof.
  intros H [Sp W]. apply convert_single_collects in H as (c & A & ->).
  pose proof (additions_real r) as R. destruct (collector_spans act _ c _ _ R A Sp W) as (S1 & S2 & S3).
  repeat split; auto.
  - intros x Hx. eapply collector_covers; eauto.
  - now apply (collector_sound act _ c (Some (fst (gr_span r))) (snd (gr_span r)) R A o).
  - now apply (collector_sound act _ c (Some (fst (gr_span r))) (snd (gr_span r)) R A o).
Qed.
