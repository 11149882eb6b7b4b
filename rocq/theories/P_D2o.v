(* Property C42: conversion to plain data and back. *)
From Coq Require Import Lia Floats.SpecFloat.
From Coq Require Import ZifyBool ZifyNat ZifyN.
From Verif Require Import PyBase PyBaseFacts IdModel LineModel DateModel RefModel TreeModel TreeSpec TreeProofs P_Sem
  D2oModel D2oSpec D2oProofs D2oProofs2 D2oProofs3 D2oHun D2oHunSpec D2oHunProofs D2oHunProofs2 D2oHunProofs3.
Local Open Scope Z_scope.

(** An example table: a base class with two subclasses, an enum, an optional tuple, a private
    field, a union with a list. *)
Definition c42_table : table := mk_table
  [ (u8 "Base", mk_class (u8 "Base") [u8 "Left"; u8 "Right"] (Some [required (u8 "name") TStr]) no_check false);
    (u8 "Left", mk_class (u8 "Left") [] (Some [required (u8 "name") TStr; defaulted (u8 "items") (optional (TVarTuple (TClass (u8 "Base")))) VNone]) no_check false);
    (u8 "Right", mk_class (u8 "Right") []
       (Some [required (u8 "name") TStr; mk_field (u8 "_size") TFloat (Default (VInt 0)) true; required (u8 "color") (TEnum (u8 "Color"))]) no_check false) ]
  [ (u8 "Color", [u8 "RED"; u8 "BLUE"]) ].
Definition c42_type : ty := TUnion [TList TInt; TClass (u8 "Base"); TNone].
Definition c42_value (size : pyfloat) : value :=
  VObj (u8 "Left") [VStr (u8 "l"); VTuple [VObj (u8 "Right") [VStr (u8 "r"); VFloat size; VEnum (u8 "Color") (u8 "BLUE")]]].

Lemma c42_cases (P : pystr -> class_info -> Prop) : (forall c, P c no_class) ->
  Forall (fun e => P (fst e) (snd e)) (t_classes c42_table) -> forall c, P c (class_of_id c42_table c).
Proof.
  intros N F c. unfold class_of_id. destruct (lookup c (t_classes c42_table)) as [i|] eqn:E; [|apply N].
  rewrite Forall_forall in F. exact (F _ (lookup_found _ _ _ E)).
Qed.
Ltac c42_each tac := unfold c42_table; cbn [t_classes]; repeat (apply Forall_cons; [tac|]); apply Forall_nil.
Lemma c42_among cs d : Forall (fun c => In c [u8 "Base"; u8 "Left"; u8 "Right"]) cs -> among c42_table cs d -> In d [u8 "Base"; u8 "Left"; u8 "Right"].
Proof.
  intros F (c & I & D). rewrite Forall_forall in F. specialize (F c I). clear I. induction D as [c|c d e I D IH]; [exact F|]. apply IH.
  revert I. apply (c42_cases (fun c i => In d (c_subclasses i) -> In d [u8 "Base"; u8 "Left"; u8 "Right"])).
  - intros x [].
  - c42_each ltac:(intros H; cbn [snd c_subclasses In] in *; tauto).
Qed.
Lemma c42_classes cs : Forall (fun c => In c [u8 "Base"; u8 "Left"; u8 "Right"]) cs -> all_attrs c42_table cs /\ names_differ c42_table cs.
Proof.
  intros F. split.
  - intros c A. apply (c42_among cs c F) in A. destruct A as [<-|[<-|[<-|[]]]]; eexists; reflexivity.
  - intros c d A B E. apply (c42_among cs c F) in A. apply (c42_among cs d F) in B.
    destruct A as [<-|[<-|[<-|[]]]]; destruct B as [<-|[<-|[<-|[]]]]; try reflexivity; discriminate E.
Qed.
Lemma c42_base : ty_ok c42_table (TClass (u8 "Base")).
Proof. destruct (c42_classes [u8 "Base"]) as (A & N); [repeat constructor|]. constructor; assumption. Qed.
Lemma c42_ok : table_ok c42_table /\ ty_ok c42_table c42_type.
Proof.
  split; [split; [|split]|].
  - exists (fun c => match c_subclasses (class_of_id c42_table c) with [] => 0 | _ => 1 end)%nat. intros c. split.
    + destruct (c_subclasses _); cbn; lia.
    + intros d. apply (c42_cases (fun c i => In d (c_subclasses i) -> (match c_subclasses (class_of_id c42_table d) with [] => 0 | _ => 1 end < match c_subclasses i with [] => 0 | _ => 1 end)%nat)).
      * intros x [].
      * c42_each ltac:(intros H; cbn [snd c_subclasses In] in H; each H ltac:(fun H => subst d; cbn; lia)).
  - intros c fs. unfold attrs_class. revert fs. apply (c42_cases (fun c i => forall fs, c_fields i = Some fs ->
      Forall (fun f => ty_ok c42_table (f_type f)) fs /\ NoDup (map (fun f => strip_one_underscore (f_name f)) fs) /\ Forall (fun f => ~ two_underscores (f_name f)) fs)).
    + intros x fs E. discriminate E.
    + assert (TU : forall s, starts_twice s = false -> ~ two_underscores s) by (intros s E (t & ->); discriminate E).
      assert (O : ty_ok c42_table (optional (TVarTuple (TClass (u8 "Base"))))).
      { constructor.
        - constructor; [constructor; exact c42_base|]. repeat constructor.
        - repeat constructor; discriminate.
        - repeat constructor; cbn; [|intros []]. intros [H|[]]. discriminate H.
        - intros z (c' & [] & _).
        - intros z d (c' & [] & _).
        - intros cs d [H|[H|[]]]; discriminate H. }
      c42_each ltac:(intros fs E; cbn [snd c_fields] in E; injection E as <-; split; [repeat (apply Forall_cons; [first [exact O|constructor]|]); apply Forall_nil|];
        split; [apply names_apart_nodup; reflexivity|]; repeat (apply Forall_cons; [apply TU; reflexivity|]); apply Forall_nil).
  - intros c fs l m _ _. revert l m. apply (c42_cases (fun c i => forall l m, c_check i l = Ok l -> c_check i m = Ok m)); [discriminate|c42_each ltac:(reflexivity)].
  - destruct (c42_classes (classes_of [TList TInt; TClass (u8 "Base"); TNone])) as (A & N); [repeat constructor|].
    constructor; [|repeat constructor; discriminate| |exact A|exact N|].
    + constructor; [repeat constructor|]. constructor; [exact c42_base|]. repeat constructor.
    + repeat constructor; cbn; [|intros []]. intros [H|[]]. discriminate H.
    + intros cs d [H|[H|[H|[]]]]; discriminate H.
Qed.
Lemma c42_typed size : typed c42_table (c42_value size) c42_type.
Proof.
  assert (D : forall d, existsb (str_eqb d) [u8 "Left"; u8 "Right"] = true -> descends c42_table (u8 "Base") d).
  { intros d H. apply existsb_exists in H as (e & I & E). apply str_eqb_eq in E. subst e. exact (descends_step c42_table (u8 "Base") d d I (descends_refl _ d)). }
  eapply typed_union; [right; left; reflexivity|]. eapply typed_obj; [apply D; reflexivity|reflexivity| |reflexivity].
  constructor; [apply field_typed; constructor|]. constructor; [|constructor]. apply field_typed.
  eapply typed_union; [left; reflexivity|]. constructor. constructor; [|constructor].
  eapply typed_obj; [apply D; reflexivity|reflexivity| |reflexivity].
  constructor; [apply field_typed; constructor|]. constructor; [apply field_typed; constructor|]. constructor; [|constructor].
  apply field_typed. eapply typed_enum; [reflexivity|]. right. left. reflexivity.
Qed.

(** C42: for all classes and annotations that work together, a value of a type is written as plain
    data and read back; only fields that equal their defaults may be replaced by the defaults. *)
Theorem C42_roundtrip : forall ct v t, table_ok ct -> ty_ok ct t -> typed ct v t ->
  exists d v', to_dict ct v t = Ok d /\ plain d /\ to_object ct d t = Ok v' /\ alike ct v v'.
Proof. intros ct v t T O V. exact (round_trip_all ct v t T V O). Qed.
Print Assumptions C42_roundtrip.
Theorem C42_equal : forall ct v t, table_ok ct -> ty_ok ct t -> typed ct v t -> without_nan v ->
  exists d v', to_dict ct v t = Ok d /\ to_object ct d t = Ok v' /\ py_eq ct v v' = true.
Proof. intros ct v t T O V. exact (round_trip_equal ct v t T V O). Qed.
Print Assumptions C42_equal.
Theorem C42_exact : forall ct v t, table_ok ct -> ty_ok ct t -> typed ct v t -> tidy ct v ->
  exists d, to_dict ct v t = Ok d /\ to_object ct d t = Ok v.
Proof. intros ct v t T O V. exact (round_trip_exact ct v t T V O). Qed.
Print Assumptions C42_exact.
(* The keys are the fields that do not have their default values. *)
Theorem C42_keys : forall ct c l t kvs, to_dict ct (VObj c l) t = Ok (VDict kvs) ->
  filter (fun k => negb (str_eqb k TYPE_KEY)) (map fst kvs) = filter (fun k => negb (str_eqb k TYPE_KEY)) (changed_fields ct (fields_of ct c) l).
Proof. exact object_keys. Qed.
Print Assumptions C42_keys.
Definition c42_size : pyfloat := S754_finite false 3 (-1).
Example C42_ex : table_ok c42_table /\ ty_ok c42_table c42_type /\ typed c42_table (c42_value c42_size) c42_type /\
  without_nan (c42_value c42_size) /\ tidy c42_table (c42_value c42_size) /\
  to_dict c42_table (c42_value c42_size) c42_type =
    Ok (VDict [(u8 "name", VStr (u8 "l"));
               (u8 "items", VList [VDict [(u8 "name", VStr (u8 "r")); (u8 "_size", VFloat c42_size); (u8 "color", VStr (u8 "BLUE")); (TYPE_KEY, VStr (u8 "Right"))]]);
               (TYPE_KEY, VStr (u8 "Left"))]).
Proof.
  split; [exact (proj1 c42_ok)|]. split; [exact (proj2 c42_ok)|]. split; [apply c42_typed|]. split; [|split; [|vm_compute; reflexivity]].
  - repeat constructor. discriminate.
  - eapply tidy_obj; [reflexivity| |].
    + constructor; [constructor|]. constructor; [|constructor]. constructor. constructor; [|constructor].
      eapply tidy_obj; [reflexivity|repeat constructor|]. repeat constructor; intros d X Y; try discriminate X. injection X as <-. discriminate Y.
    + repeat constructor; intros d X Y; try discriminate X. injection X as <-. discriminate Y.
Qed.
(* With the size 0.0, which equals the default 0, the size read back is the integer 0. *)
Theorem C42_default_refuted : ~ forall ct v t, table_ok ct -> ty_ok ct t -> typed ct v t -> without_nan v ->
  exists d, to_dict ct v t = Ok d /\ to_object ct d t = Ok v.
Proof.
  intros H. destruct (H c42_table (c42_value (S754_zero false)) c42_type (proj1 c42_ok) (proj2 c42_ok) (c42_typed _)) as (d & E1 & E2).
  - repeat constructor. discriminate.
  - vm_compute in E1. injection E1 as <-. vm_compute in E2. discriminate E2.
Qed.
Print Assumptions C42_default_refuted.
(* NaN is never equal to itself. *)
Theorem C42_nan_refuted : ~ forall ct v t, table_ok ct -> ty_ok ct t -> typed ct v t ->
  exists d v', to_dict ct v t = Ok d /\ to_object ct d t = Ok v' /\ py_eq ct v v' = true.
Proof.
  intros H. destruct (H c42_table (c42_value S754_nan) c42_type (proj1 c42_ok) (proj2 c42_ok) (c42_typed _)) as (d & v' & E1 & E2 & E3).
  vm_compute in E1. injection E1 as <-. vm_compute in E2. injection E2 as <-. vm_compute in E3. discriminate E3.
Qed.
Print Assumptions C42_nan_refuted.
(* Unions whose members have the same kind of data are accepted in one order, and then the later
   member reads what the earlier one wrote: an enum comes back as a string, a tuple as a list. *)
Theorem C42_union_refuted : ~ forall ct v ts d v', table_ok ct -> Forall (ty_ok ct) ts -> typed ct v (TUnion ts) ->
  to_dict ct v (TUnion ts) = Ok d -> to_object ct d (TUnion ts) = Ok v' -> py_eq ct v v' = true.
Proof.
  intros H. specialize (H c42_table (VEnum (u8 "Color") (u8 "RED")) [TEnum (u8 "Color"); TStr] (VStr (u8 "RED")) (VStr (u8 "RED")) (proj1 c42_ok)).
  assert (X : py_eq c42_table (VEnum (u8 "Color") (u8 "RED")) (VStr (u8 "RED")) = true); [|discriminate X].
  apply H; [repeat constructor| |reflexivity|reflexivity]. eapply typed_union; [left; reflexivity|]. eapply typed_enum; [reflexivity|]. left. reflexivity.
Qed.
Print Assumptions C42_union_refuted.
Example C42_union_ex :
  to_dict c42_table (VTuple [VInt 1]) (TUnion [TVarTuple TInt; TList TInt]) = Ok (VList [VInt 1]) /\
  to_object c42_table (VList [VInt 1]) (TUnion [TVarTuple TInt; TList TInt]) = Ok (VList [VInt 1]) /\
  to_dict c42_table (VTuple [VInt 1]) (TUnion [TList TInt; TVarTuple TInt]) = Err TypeError.
Proof. repeat split; reflexivity. Qed.

(** The classes of hun_law are such classes. *)
Theorem C42_hun_law : table_ok hun_table /\ forall c, In c (map fst hun_classes) -> ty_ok hun_table (TClass c).
Proof.
  split; [exact hun_table_ok|]. intros c I. apply known_type. unfold known. destruct (lookup c hun_classes) eqn:E; [reflexivity|].
  apply lookup_none in E. contradiction.
Qed.
Print Assumptions C42_hun_law.
Theorem C42_act : forall a, writable a -> (forall l, line_in_act a l -> numbers l) ->
  exists d v, to_dict hun_table (act_value a) (TClass (u8 "Act")) = Ok d /\ plain d /\
    to_object hun_table d (TClass (u8 "Act")) = Ok v /\ py_eq hun_table (act_value a) v = true.
Proof.
  intros a W N. assert (K : ty_ok hun_table (TClass (u8 "Act"))) by (apply known_type; reflexivity).
  destruct (C42_roundtrip hun_table (act_value a) _ hun_table_ok K (act_typed a W)) as (d & v & E1 & P & E2 & A).
  exists d, v. split; [exact E1|]. split; [exact P|]. split; [exact E2|].
  exact (alike_equal _ _ v (typed_shaped _ _ _ (act_typed a W)) (act_wn a (wr_built a W) N) A).
Qed.
Print Assumptions C42_act.
(* if no quoted line has 0 as its right margin, the act itself *)
Theorem C42_act_exact : forall a, writable a -> (forall l, line_in_act a l -> with_margin l) ->
  exists d, to_dict hun_table (act_value a) (TClass (u8 "Act")) = Ok d /\ plain d /\
    to_object hun_table d (TClass (u8 "Act")) = Ok (act_value a).
Proof.
  intros a W M. assert (K : ty_ok hun_table (TClass (u8 "Act"))) by (apply known_type; reflexivity).
  destruct (C42_roundtrip hun_table (act_value a) _ hun_table_ok K (act_typed a W)) as (d & v & E1 & P & E2 & A).
  exists d. split; [exact E1|]. split; [exact P|]. rewrite (alike_tidy _ _ v (act_tidy a (wr_built a W) M) A). exact E2.
Qed.
Print Assumptions C42_act_exact.
(* different acts have different values, and different data *)
Theorem C42_act_distinct : forall a b, writable a -> writable b -> real_specials a -> real_specials b ->
  (forall l, line_in_act a l -> with_margin l) -> (forall l, line_in_act b l -> with_margin l) ->
  to_dict hun_table (act_value a) (TClass (u8 "Act")) = to_dict hun_table (act_value b) (TClass (u8 "Act")) -> a = b.
Proof.
  intros a b Wa Wb Sa Sb Ma Mb E. destruct (C42_act_exact a Wa Ma) as (d & D1 & _ & O1). destruct (C42_act_exact b Wb Mb) as (e & D2 & _ & O2).
  apply act_inj; [exact (wr_built a Wa)|exact Sa|exact Sb|]. rewrite D1, D2 in E. injection E as ->. congruence.
Qed.
Print Assumptions C42_act_distinct.
Theorem C42_law : forall i d s b, real_date d -> Forall numbers b ->
  exists x v, to_dict hun_table (raw_value i d s b) (TClass (u8 "MagyarKozlonyLawRawText")) = Ok x /\ plain x /\
    to_object hun_table x (TClass (u8 "MagyarKozlonyLawRawText")) = Ok v /\ py_eq hun_table (raw_value i d s b) v = true.
Proof.
  intros i d s b R N. assert (K : ty_ok hun_table (TClass (u8 "MagyarKozlonyLawRawText"))) by (apply known_type; reflexivity).
  destruct (C42_roundtrip hun_table (raw_value i d s b) _ hun_table_ok K (raw_typed i d s b R)) as (x & v & E1 & P & E2 & A).
  exists x, v. split; [exact E1|]. split; [exact P|]. split; [exact E2|].
  exact (alike_equal _ _ v (typed_shaped _ _ _ (raw_typed i d s b R)) (raw_wn i d s b N) A).
Qed.
Print Assumptions C42_law.
Theorem C42_pages : forall pages, Forall (Forall numbers) pages ->
  exists x v, to_dict hun_table (pdf_value pages) (TClass (u8 "PdfOfLines")) = Ok x /\ plain x /\
    to_object hun_table x (TClass (u8 "PdfOfLines")) = Ok v /\ py_eq hun_table (pdf_value pages) v = true.
Proof.
  intros pages N. assert (K : ty_ok hun_table (TClass (u8 "PdfOfLines"))) by (apply known_type; reflexivity).
  destruct (C42_roundtrip hun_table (pdf_value pages) _ hun_table_ok K (pdf_typed pages)) as (x & v & E1 & P & E2 & A).
  exists x, v. split; [exact E1|]. split; [exact P|]. split; [exact E2|].
  exact (alike_equal _ _ v (typed_shaped _ _ _ (pdf_typed pages)) (pdf_wn pages N) A).
Qed.
Print Assumptions C42_pages.

(** The example: a chapter, an article with an enforcement date, one with an amendment that has an
    article and a structural element inside, one with quoted lines. *)
Fixpoint sae_insides (s : sae) : list child :=
  match s with
  | mk_sae _ _ _ _ (Some cs) _ _ => flat_map (fun c => c :: child_insides c) cs
  | _ => []
  end
with child_insides (c : child) : list child :=
  match c with ChSae s => sae_insides s | ChArticle a => article_insides a | _ => [] end
with article_insides (a : article) : list child :=
  match a with mk_article _ _ ps => flat_map (fun p => ChSae p :: sae_insides p) ps end.
Lemma insides_complete :
  (forall c s, inside_sae c s -> In c (sae_insides s)) /\
  (forall c d, inside_child_of c d -> In c (child_insides d)) /\
  (forall c a, inside_article c a -> In c (article_insides a)).
Proof.
  apply inside_mutind; cbn beta.
  - intros [k i t n cs w m] l c E I. cbn in E. subst cs. cbn. apply in_flat_map. exists c. split; [exact I|left; reflexivity].
  - intros [k i t n cs w m] l d c E I _ IH. cbn in E. subst cs. cbn. apply in_flat_map. exists d. split; [exact I|right; exact IH].
  - intros c s _ IH. exact IH.
  - intros c a _ IH. exact IH.
  - intros [i t ps] p I. cbn. apply in_flat_map. exists p. split; [exact I|left; reflexivity].
  - intros [i t ps] p c I _ IH. cbn. apply in_flat_map. exists p. split; [exact I|right; exact IH].
Qed.
Definition act_insides (a : act) : list child :=
  flat_map (fun c => match c with AArticle x => ChArticle x :: article_insides x | _ => [] end) (act_children a).
Lemma in_act_insides a c : in_act a c -> In c (act_insides a).
Proof.
  intros (x & I & H). apply in_flat_map. exists (AArticle x). split; [exact I|]. destruct H as [->|H]; [left; reflexivity|right].
  exact (proj2 (proj2 insides_complete) c x H).
Qed.

Definition c42_line (margin : pyfloat) : line := mk_line [mk_part (S754_finite false 5 1) (u8 "„Idézet”") true] margin.
Definition c42_meta : sae_meta := mk_meta (Some []) (Some [mk_outgoing 3 8 (mk_ref (Some (u8 "Ptk.")) (RId (u8 "1")) (RRange (u8 "2") (u8 "4")) RNone RNone)])
  (Some [EnforcementDate None (EDate (mk_date 2020 2 29)) (Some (mk_date 2021 1 1));
         BlockAmendment (ASRef (mk_sref (Some (u8 "Ptk.")) None None None None None (Some (mk_combo AFTER (u8 "3"))))) true]).
Definition c42_amended : sae := mk_sae KBlockAmendmentContainer None None (Some (u8 "(Lép helyébe)"))
  (Some [ChStruct (mk_struct KPart (u8 "2") (u8 "Rész") true);
         ChArticle (mk_article (u8 "3") (Some (u8 "Cím")) [mk_sae KParagraph None (Some (u8 "Új szöveg.")) None None None NO_META])]) None NO_META.
Definition c42_act (margin : pyfloat) : act := mk_act (u8 "2020. évi I. törvény") (mk_date 2020 1 31) (u8 "tárgy") (u8 "preambulum")
  [AStruct (mk_struct KChapter (u8 "1") (u8 "Fejezet") false);
   AArticle (mk_article (u8 "1") None [mk_sae KParagraph (Some (u8 "1")) (Some (u8 "Hatályba lép.")) None None None c42_meta]);
   AArticle (mk_article (u8 "2") None [mk_sae KParagraph None None (Some (u8 "A Ptk.:")) (Some [ChSae c42_amended]) None NO_META]);
   AArticle (mk_article (u8 "3") None [mk_sae KParagraph None None (Some (u8 "Így:")) (Some [ChQuoted [c42_line margin]]) (Some (u8 "vége")) NO_META])].
Ltac c42_build := lazymatch goal with
  | |- built_child (ChSae _) => apply built_child_sae; c42_build
  | |- built_child (ChArticle _) => apply built_child_article; c42_build
  | |- built_child _ => constructor
  | |- built_sae (mk_sae ?k ?i ?t ?n ?cs ?w ?m) =>
      apply (built_sae_intro k i t n cs w m); [|vm_compute; reflexivity];
      let l := fresh in let x := fresh in let E := fresh in let H := fresh in
      intros l x E H; first [discriminate E | injection E as <-; cbn [In] in H; each H ltac:(fun H => subst x; c42_build)]
  | |- built_article (mk_article ?i ?t ?ps) =>
      apply (built_article_intro i t ps); [|vm_compute; reflexivity];
      let p := fresh in let H := fresh in intros p H; cbn [In] in H; each H ltac:(fun H => subst p; c42_build)
  end.
Lemma c42_writable margin : writable (c42_act margin).
Proof.
  constructor.
  - unfold c42_act, c42_amended. intros x H. cbn [In act_children] in H.
    each H ltac:(fun H => first [discriminate H | injection H as <-; split; [c42_build|repeat constructor]]).
  - intros x H. apply in_act_insides in H. cbn in H. each H ltac:(fun H => first [discriminate H | injection H as <-; repeat constructor]).
  - reflexivity.
  - intros s data d e H. apply in_act_insides in H. cbn in H.
    each H ltac:(fun H => first [discriminate H | injection H as <-; intros E I J; cbn in E; first [discriminate E |
      injection E as <-; cbn [In] in I; each I ltac:(fun I => subst d; cbn in J; each J ltac:(fun J => subst e; reflexivity))]]).
Qed.
Lemma c42_lines margin l : line_in_act (c42_act margin) l -> l = c42_line margin.
Proof.
  intros (ls & H & I). apply in_act_insides in H. cbn in H.
  each H ltac:(fun H => first [discriminate H | injection H as <-; destruct I as [<-|[]]; reflexivity]).
Qed.
Example C42_act_ex : forall margin, margin = S754_finite false 3 0 ->
  writable (c42_act margin) /\ real_specials (c42_act margin) /\
  (forall l, line_in_act (c42_act margin) l -> numbers l /\ with_margin l) /\
  exists d, to_dict hun_table (act_value (c42_act margin)) (TClass (u8 "Act")) = Ok d /\
    to_object hun_table d (TClass (u8 "Act")) = Ok (act_value (c42_act margin)).
Proof.
  intros margin ->. split; [apply c42_writable|]. split; [|split].
  - split; [intros e H; cbn in H; each H ltac:(fun H => first [discriminate H | injection H as <-; right; reflexivity])|].
    intros e H. apply in_act_insides in H. cbn in H. each H ltac:(fun H => first [discriminate H | injection H as <-; left; reflexivity]).
  - intros l H. apply c42_lines in H. subst l. split; [split; [discriminate|repeat constructor; discriminate]|intros s E; discriminate E].
  - destruct (to_dict hun_table (act_value (c42_act (S754_finite false 3 0))) (TClass (u8 "Act"))) as [d|] eqn:E; [|vm_compute in E; discriminate E].
    exists d. split; [reflexivity|]. vm_compute in E. injection E as <-. vm_compute. reflexivity.
Qed.
(* The children of an article are not checked when it is made, and read back as paragraphs. *)
Definition c42_points : act := mk_act (u8 "2020. évi I. törvény") (mk_date 2020 1 31) [] []
  [AArticle (mk_article (u8 "1") None [mk_sae KAlphabeticPoint (Some (u8 "a")) (Some (u8 "pont")) None None None NO_META])].
Theorem C42_article_refuted : ~ forall a, (forall x, In (AArticle x) (act_children a) -> built_article x) -> real_date (act_publication_date a) ->
  forall d v, to_dict hun_table (act_value a) (TClass (u8 "Act")) = Ok d -> to_object hun_table d (TClass (u8 "Act")) = Ok v ->
  py_eq hun_table (act_value a) v = true.
Proof.
  intros H. specialize (H c42_points).
  assert (B : forall x, In (AArticle x) (act_children c42_points) -> built_article x).
  { intros x I. cbn [In act_children c42_points] in I. each I ltac:(fun I => injection I as <-; c42_build). }
  destruct (to_dict hun_table (act_value c42_points) (TClass (u8 "Act"))) as [d|] eqn:E1; [|vm_compute in E1; discriminate E1].
  destruct (to_object hun_table d (TClass (u8 "Act"))) as [v|] eqn:E2; [|vm_compute in E1; injection E1 as <-; vm_compute in E2; discriminate E2].
  specialize (H B eq_refl _ _ eq_refl E2). vm_compute in E1. injection E1 as <-. vm_compute in E2. injection E2 as <-. vm_compute in H. discriminate H.
Qed.
Print Assumptions C42_article_refuted.
