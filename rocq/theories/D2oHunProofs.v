(* Proofs about the class table of hun_law: dict2object can convert its classes. *)
From Coq Require Import Lia Floats.SpecFloat.
From Coq Require Import ZifyBool ZifyNat ZifyN.
From Verif Require Import PyBase PyBaseFacts LineModel DateModel TreeModel D2oModel D2oSpec D2oProofs D2oProofs2 D2oProofs3 D2oHun.

Notation ct := hun_table.

(** * Classes *)

Definition known (c : pystr) : bool := match lookup c hun_classes with Some _ => true | None => false end.


(* every entry is under its own name, has fields, and subclasses that are known and have none *)
Definition entry_ok (e : pystr * class_info) : bool :=
  str_eqb (fst e) (c_name (snd e)) &&
  match c_fields (snd e) with Some _ => true | None => false end &&
  forallb (fun d => match lookup d hun_classes with Some i => match c_subclasses i with [] => true | _ => false end | None => false end)
          (c_subclasses (snd e)).
Lemma entries_ok : forallb entry_ok hun_classes = true.
Proof. vm_compute. reflexivity. Qed.

Lemma class_info_cases c : class_of_id ct c = no_class \/ exists i, lookup c hun_classes = Some i /\ class_of_id ct c = i /\ entry_ok (c, i) = true.
Proof.
  unfold class_of_id. change (t_classes ct) with hun_classes. destruct (lookup c hun_classes) as [i|] eqn:E; [|left; reflexivity].
  right. exists i. split; [reflexivity|]. split; [reflexivity|].
  pose proof entries_ok as F. rewrite forallb_forall in F. exact (F _ (lookup_found _ _ _ E)).
Qed.
Lemma subclass_known c d : In d (c_subclasses (class_of_id ct c)) -> known d = true /\ c_subclasses (class_of_id ct d) = [].
Proof.
  intros H. destruct (class_info_cases c) as [E|(i & L & E & OK)]; rewrite E in H; [destruct H|].
  unfold entry_ok in OK. apply andb_true_iff in OK as (_ & OK). cbn [snd] in OK. rewrite forallb_forall in OK. specialize (OK d H).
  unfold known, class_of_id. change (t_classes ct) with hun_classes. destruct (lookup d hun_classes) as [j|]; [|discriminate].
  destruct (c_subclasses j); [auto|discriminate].
Qed.
Lemma known_class c : known c = true -> c_name (class_of_id ct c) = c /\ exists fs, attrs_class ct c fs.
Proof.
  unfold known. intros K. destruct (lookup c hun_classes) as [i|] eqn:E; [|discriminate].
  unfold attrs_class, class_of_id. change (t_classes ct) with hun_classes. rewrite E.
  pose proof entries_ok as F. rewrite forallb_forall in F. specialize (F _ (lookup_found _ _ _ E)).
  unfold entry_ok in F. cbn [fst snd] in F. apply andb_true_iff in F as (F & _). apply andb_true_iff in F as (F1 & F2).
  apply str_eqb_eq in F1. split; [congruence|]. destruct (c_fields i); [eauto|discriminate].
Qed.
Lemma attrs_known c fs : attrs_class ct c fs -> known c = true.
Proof.
  unfold attrs_class, known, class_of_id. change (t_classes ct) with hun_classes. destruct (lookup c hun_classes); [reflexivity|discriminate].
Qed.
Lemma descends_known c d : known c = true -> descends ct c d -> known d = true.
Proof. intros K D. induction D as [|c d e I D IH]; [exact K|]. apply IH. exact (proj1 (subclass_known _ _ I)). Qed.
Lemma among_known cs d : Forall (fun c => known c = true) cs -> among ct cs d -> known d = true.
Proof. intros K (c & I & D). rewrite Forall_forall in K. exact (descends_known _ _ (K c I) D). Qed.
Lemma known_names cs : Forall (fun c => known c = true) cs -> names_differ ct cs.
Proof.
  intros K c d A B E. destruct (known_class c (among_known _ _ K A)) as (N & _). destruct (known_class d (among_known _ _ K B)) as (M & _). congruence.
Qed.
Lemma known_attrs cs : Forall (fun c => known c = true) cs -> all_attrs ct cs.
Proof. intros K c A. exact (proj2 (known_class c (among_known _ _ K A))). Qed.

(** * Annotations *)

Definition kind_eqb (a b : option kind) : bool :=
  match a, b with
  | Some JBool, Some JBool | Some JInt, Some JInt | Some JFloat, Some JFloat | Some JStr, Some JStr | Some JNull, Some JNull
  | Some JList, Some JList | Some JDict, Some JDict | None, None => true
  | _, _ => false
  end.
Fixpoint kinds_differ (l : list (option kind)) : bool :=
  match l with [] => true | k :: r => negb (existsb (kind_eqb k) r) && kinds_differ r end.
Fixpoint annotation_ok (t : ty) : bool :=
  match t with
  | TBool | TInt | TFloat | TStr | TNone | TEnum _ => true
  | TList u | TVarTuple u => annotation_ok u
  | TTuple us => forallb annotation_ok us
  | TTypeOf _ | TOther => false
  | TClass c => known c
  | TUnion us =>
      forallb annotation_ok us && forallb (fun u => match kind_of u with Some _ => true | None => false end) us &&
      kinds_differ (map kind_of (filter (fun u => negb (is_class u)) us))
  end.
Lemma kind_eqb_refl k : kind_eqb k k = true.
Proof. destruct k as [[]|]; reflexivity. Qed.
Lemma kinds_differ_nodup l : kinds_differ l = true -> NoDup l.
Proof.
  induction l as [|k l IH]; cbn; [constructor|]. intros H. apply andb_true_iff in H as (H1 & H2). constructor; [|auto].
  intros I. apply negb_true_iff in H1. assert (existsb (kind_eqb k) l = true); [|congruence].
  apply existsb_exists. exists k. split; [exact I|apply kind_eqb_refl].
Qed.
Lemma annotation_works (t : ty) : annotation_ok t = true -> ty_ok ct t.
Proof.
  revert t. fix IH 1. intros t. destruct t; cbn; intros H; try discriminate; try (constructor; fail).
  - constructor. exact (IH _ H).
  - constructor. exact (IH _ H).
  - constructor. induction ts as [|u ts IHl]; [constructor|]. cbn in H. apply andb_true_iff in H. destruct H as (H1 & H2).
    constructor; [exact (IH _ H1)|exact (IHl H2)].
  - assert (K : Forall (fun c => known c = true) [c]) by (constructor; [exact H|constructor]).
    constructor; [exact (known_attrs _ K)|exact (known_names _ K)].
  - apply andb_true_iff in H. destruct H as (H & H3). apply andb_true_iff in H. destruct H as (H1 & H2).
    assert (K : Forall (fun c => known c = true) (classes_of ts)).
    { clear - H1. induction ts as [|u ts IHl]; [constructor|]. cbn in H1. apply andb_true_iff in H1. destruct H1 as (H1 & H2).
      destruct u; cbn; try exact (IHl H2). constructor; [exact H1|exact (IHl H2)]. }
    constructor.
    + clear - IH H1. induction ts as [|u ts IHl]; [constructor|]. cbn in H1. apply andb_true_iff in H1. destruct H1 as (H1 & H2).
      constructor; [exact (IH _ H1)|exact (IHl H2)].
    + rewrite forallb_forall in H2. apply Forall_forall. intros u I E. specialize (H2 u I). rewrite E in H2. discriminate.
    + exact (kinds_differ_nodup _ H3).
    + exact (known_attrs _ K).
    + exact (known_names _ K).
    + intros cs d I. exfalso. rewrite forallb_forall in H1. specialize (H1 _ I). discriminate.
Qed.

(** * Fields *)

Fixpoint names_apart (l : list pystr) : bool :=
  match l with [] => true | n :: r => negb (existsb (str_eqb n) r) && names_apart r end.
Lemma names_apart_nodup l : names_apart l = true -> NoDup l.
Proof.
  induction l as [|k l IH]; cbn; [constructor|]. intros H. apply andb_true_iff in H as (H1 & H2). constructor; [|auto].
  intros I. apply negb_true_iff in H1. assert (existsb (str_eqb k) l = true); [|congruence].
  apply existsb_exists. exists k. split; [exact I|apply str_eqb_refl].
Qed.
Definition starts_twice (s : pystr) : bool := match s with a :: b :: _ => (a =? 95)%N && (b =? 95)%N | _ => false end.
Definition fields_ok (fs : list field) : bool :=
  forallb (fun f => annotation_ok (f_type f)) fs && names_apart (map (fun f => strip_one_underscore (f_name f)) fs) &&
  forallb (fun f => negb (starts_twice (f_name f))) fs.
Lemma all_fields_ok : forallb (fun e : pystr * class_info => match c_fields (snd e) with Some fs => fields_ok fs | None => true end) hun_classes = true.
Proof. vm_compute. reflexivity. Qed.

Lemma attrs_entry c fs : attrs_class ct c fs -> exists i, In (c, i) hun_classes /\ class_of_id ct c = i /\ c_fields i = Some fs.
Proof.
  unfold attrs_class. intros H. unfold class_of_id in *. change (t_classes ct) with hun_classes in *.
  destruct (lookup c hun_classes) as [i|] eqn:E; [|discriminate]. exists i. split; [exact (lookup_found _ _ _ E)|]. auto.
Qed.
Lemma fields_work c fs : attrs_class ct c fs ->
  Forall (fun f => ty_ok ct (f_type f)) fs /\ NoDup (map (fun f => strip_one_underscore (f_name f)) fs) /\
  Forall (fun f => ~ two_underscores (f_name f)) fs.
Proof.
  intros A. destruct (attrs_entry c fs A) as (i & I & _ & F). pose proof all_fields_ok as P. rewrite forallb_forall in P.
  specialize (P _ I). cbn [snd] in P. rewrite F in P. unfold fields_ok in P.
  apply andb_true_iff in P as (P & P3). apply andb_true_iff in P as (P1 & P2).
  rewrite forallb_forall in P1, P3. split; [|split].
  - apply Forall_forall. intros f If. exact (annotation_works _ (P1 f If)).
  - exact (names_apart_nodup _ P2).
  - apply Forall_forall. intros f If (t & E). specialize (P3 f If). rewrite E in P3. discriminate.
Qed.

(** * Checks *)

Lemma eq_none v : py_eq ct v VNone = true <-> v = VNone.
Proof. destruct v; cbn; split; congruence. Qed.
Lemma none_eq v : py_eq ct VNone v = true <-> v = VNone.
Proof. destruct v; cbn; split; congruence. Qed.

Lemma alike_tuple_inv l w : alike ct (VTuple l) w -> exists m, w = VTuple m /\ Forall2 (alike ct) l m.
Proof.
  intros A. inversion A; subst; [|eauto]. exists l. split; [reflexivity|]. clear A. induction l; constructor; [constructor|assumption].
Qed.
Lemma alike_list_inv l w : alike ct (VList l) w -> exists m, w = VList m /\ Forall2 (alike ct) l m.
Proof.
  intros A. inversion A; subst; [|eauto]. exists l. split; [reflexivity|]. clear A. induction l; constructor; [constructor|assumption].
Qed.
Lemma alike_is_object c v w : alike ct v w -> is_object_of c w = is_object_of c v.
Proof. intros A. inversion A; reflexivity. Qed.
Lemma alike_class v w : alike ct v w -> class_name w = class_name v.
Proof. intros A. inversion A; reflexivity. Qed.
Lemma alike_none v w : alike ct v w -> is_VNone w = is_VNone v.
Proof. intros A. inversion A; reflexivity. Qed.
Lemma alike_unnamed v w : alike ct v w -> unnamed w = unnamed v.
Proof.
  intros A. inversion A as [| | |c fs l m _ F]; try reflexivity; subst. destruct F as [|f fs x y l m X F|f fs x d l m D Q F]; try reflexivity.
  - cbn. inversion X; reflexivity.
  - cbn. destruct x, d; try reflexivity; cbn in Q; discriminate.
Qed.
Lemma forallb_alike (p : value -> bool) l m : (forall v w, alike ct v w -> p w = p v) -> Forall2 (alike ct) l m -> forallb p m = forallb p l.
Proof. intros P F. induction F as [|x y l m A F IH]; [reflexivity|]. cbn. rewrite IH, (P _ _ A). reflexivity. Qed.
Lemma existsb_alike (p : value -> bool) l m : (forall v w, alike ct v w -> p w = p v) -> Forall2 (alike ct) l m -> existsb p m = existsb p l.
Proof. intros P F. induction F as [|x y l m A F IH]; [reflexivity|]. cbn. rewrite IH, (P _ _ A). reflexivity. Qed.

(* without defaults, or with None as the default, fields are alike one by one *)
Lemma alike_pointwise fs l m : Forall (fun f => forall d, f_default f = Default d -> d = VNone) fs ->
  alike_fields ct fs l m -> Forall2 (alike ct) l m.
Proof.
  intros N A. induction A as [|f fs x y l m X A IH|f fs x d l m D Q A IH]; [constructor| |]; inversion N as [|? ? N1 N2]; subst.
  - constructor; auto.
  - constructor; [|auto]. rewrite (N1 d D) in *. apply eq_none in Q. subst. constructor.
Qed.

Lemma sae_check_alike k l m : Forall2 (alike ct) l m -> sae_check k l = Ok l -> sae_check k m = Ok m.
Proof.
  intros F H. destruct F as [|i i' ? ? Ai F]; [discriminate|]. destruct F as [|t t' ? ? At F]; [discriminate|].
  destruct F as [|n n' ? ? An F]; [discriminate|]. destruct F as [|c c' ? ? Ac F]; [discriminate|]. destruct F as [|w w' ? ? Aw F]; [discriminate|].
  destruct F as [|a a' ? ? Aa F]; [discriminate|]. destruct F as [|o o' ? ? Ao F]; [discriminate|]. destruct F as [|s s' ? ? As F]; [discriminate|].
  destruct F as [|]; [|discriminate]. unfold sae_check in *.
  rewrite (alike_none _ _ At), (alike_none _ _ An), (alike_none _ _ Aw), (alike_none _ _ Ac).
  apply bind_ok in H as ([] & H1 & H). apply bind_ok in H as ([] & H2 & H). apply bind_ok in H as ([] & H3 & _).
  rewrite H2. destruct c; try discriminate.
  - inversion Ac; subst. reflexivity.
  - apply alike_tuple_inv in Ac as (cs & -> & Fc). destruct Fc as [|c0 d0 cs ds A0 Fc]; [discriminate|].
    rewrite (forallb_alike (fun c => opt_eqb str_eqb (class_name c) (class_name d0)) _ _ (fun v w A => ltac:(cbn; rewrite (alike_class _ _ A); reflexivity)) Fc).
    rewrite (alike_class _ _ A0). rewrite H1. cbn [bind].
    rewrite (forallb_alike (fun c => existsb (fun n => is_object_of n c) (allowed_children k)) (c0 :: cs) (d0 :: ds)); [rewrite H3; reflexivity| |constructor; assumption].
    intros v u A. clear - A. induction (allowed_children k) as [|x r IH]; [reflexivity|]. cbn. rewrite IH, (alike_is_object _ _ _ A). reflexivity.
Qed.
Lemma same_length {A B} (R : A -> B -> Prop) l m : Forall2 R l m -> length l = length m.
Proof. intros F. induction F; [reflexivity|]. cbn. congruence. Qed.
Lemma article_check_alike l m : Forall2 (alike ct) l m -> article_check l = Ok l -> article_check m = Ok m.
Proof.
  intros F H. destruct F as [|i i' ? ? Ai F]; [discriminate|]. destruct F as [|c c' ? ? Ac F]; [destruct i; discriminate|].
  destruct F as [|t t' ? ? At F]; [destruct c; discriminate|]. destruct F; [|destruct c; discriminate]. destruct c; try discriminate.
  apply alike_tuple_inv in Ac as (cs & -> & Fc). cbn in *. rewrite (existsb_alike unnamed _ _ alike_unnamed Fc).
  rewrite <- (same_length _ _ _ Fc). destruct (existsb unnamed _ && _); [discriminate|reflexivity].
Qed.
Lemma date_check_alike l m : Forall2 (alike ct) l m -> date_check l = Ok l -> date_check m = Ok m.
Proof.
  intros F H. enough (l = m) by congruence.
  destruct F as [|y y' ? ? Ay F]; [reflexivity|]. destruct F as [|m1 m1' ? ? Am F]; [destruct y; discriminate|].
  destruct F as [|d d' ? ? Ad F]; [destruct y, m1; discriminate|]. destruct F; [|destruct y, m1, d; discriminate].
  destruct y; try discriminate. destruct m1; try discriminate. destruct d; try discriminate. inversion Ay. inversion Am. inversion Ad. reflexivity.
Qed.
Lemma line_check_alike p p' r r' : alike ct p p' -> line_check [p; r] = Ok [p; r] -> line_check [p'; r'] = Ok [p'; r'].
Proof.
  intros A H. destruct p; try discriminate. apply alike_tuple_inv in A as (cs & -> & F). cbn in *.
  rewrite (forallb_alike _ _ _ (alike_is_object _) F). destruct (forallb _ l); [reflexivity|discriminate].
Qed.
Lemma list_check_alike p p' : alike ct p p' -> list_check [p] = Ok [p] -> list_check [p'] = Ok [p'].
Proof. intros A H. destruct p; try discriminate. apply alike_list_inv in A as (cs & -> & F). reflexivity. Qed.

(* the kinds of checks of the classes *)
Definition is_none_default (f : field) : bool := match f_default f with Default VNone | NoDefault | Factory _ => true | _ => false end.
Lemma none_defaults fs : forallb is_none_default fs = true -> Forall (fun f => forall d, f_default f = Default d -> d = VNone) fs.
Proof.
  intros H. rewrite forallb_forall in H. apply Forall_forall. intros f I d E. specialize (H f I). unfold is_none_default in H. rewrite E in H.
  destruct d; congruence.
Qed.
Inductive check_kind (i : class_info) (fs : list field) : Prop :=
| ck_none : c_check i = no_check -> check_kind i fs
| ck_abstract : c_check i = abstract -> check_kind i fs
| ck_sae k : c_check i = sae_check k -> forallb is_none_default fs = true -> check_kind i fs
| ck_article : c_check i = article_check -> forallb is_none_default fs = true -> check_kind i fs
| ck_date : c_check i = date_check -> forallb is_none_default fs = true -> check_kind i fs
| ck_line f g d : c_check i = line_check -> fs = [mk_field f g (Factory d) true; mk_field (u8 "margin_right") TFloat (Default (VInt 0)) false] -> check_kind i fs
| ck_list f : c_check i = list_check -> fs = [f] -> is_none_default f = true -> check_kind i fs.

Lemma check_kinds c fs : attrs_class ct c fs -> check_kind (class_of_id ct c) fs.
Proof.
  intros A. destruct (attrs_entry c fs A) as (i & I & -> & F).
  assert (X : Forall (fun e : pystr * class_info => forall fs, c_fields (snd e) = Some fs -> check_kind (snd e) fs) hun_classes).
  { clear. unfold hun_classes.
    repeat (apply Forall_cons; [let E := fresh in intros fs E; cbn [snd c_fields plain_class checked_class abc_class] in E; injection E as <-;
      first [ solve [apply ck_none; reflexivity] | solve [apply ck_abstract; reflexivity] | solve [eapply ck_sae; reflexivity] | solve [apply ck_article; reflexivity]
            | solve [apply ck_date; reflexivity] | solve [eapply ck_line; reflexivity] | solve [eapply ck_list; reflexivity] ]|]).
    apply Forall_nil. }
  rewrite Forall_forall in X. exact (X _ I _ F).
Qed.
Lemma checks_work c fs l m : attrs_class ct c fs -> alike_fields ct fs l m ->
  c_check (class_of_id ct c) l = Ok l -> c_check (class_of_id ct c) m = Ok m.
Proof.
  intros A F H. destruct (check_kinds c fs A) as [E|E|k E N|E N|E N|f g d E ->|f E -> N]; rewrite E in *.
  - reflexivity.
  - discriminate.
  - exact (sae_check_alike k l m (alike_pointwise _ _ _ (none_defaults _ N) F) H).
  - exact (article_check_alike l m (alike_pointwise _ _ _ (none_defaults _ N) F) H).
  - exact (date_check_alike l m (alike_pointwise _ _ _ (none_defaults _ N) F) H).
  - inversion F as [|? ? x y l' m' X F'|? ? ? ? ? ? D]; subst; [|discriminate D].
    inversion F' as [|? ? x' y' l'' m'' X' F''|? ? x' ? l'' m'' D Q F'']; subst; inversion F''; subst; exact (line_check_alike _ _ _ _ X H).
  - inversion F as [|? ? x y l' m' X F'|? ? x d l' m' D Q F']; subst; inversion F'; subst.
    + exact (list_check_alike _ _ X H).
    + unfold is_none_default in N. rewrite D in N. destruct d; try discriminate. apply eq_none in Q. subst. discriminate.
Qed.

Lemma hun_table_ok : table_ok ct.
Proof.
  split; [|split].
  - exists (fun c => match c_subclasses (class_of_id ct c) with [] => 0 | _ => 1 end)%nat. intros c. split.
    + destruct (c_subclasses _); cbn; lia.
    + intros d I. rewrite (proj2 (subclass_known c d I)). destruct (c_subclasses (class_of_id ct c)); [destruct I|lia].
  - exact fields_work.
  - exact checks_work.
Qed.
