(* Proofs about dict2object, part 1: dictionaries, subclasses and the choice made by unions. *)
From Coq Require Import Lia.
From Coq Require Import ZifyBool ZifyNat ZifyN.
From Verif Require Import PyBase PyBaseFacts LineModel D2oModel D2oSpec.

(** * Dictionaries *)

Lemma str_eqb_neq (a b : pystr) : a <> b -> str_eqb a b = false.
Proof. intros H. destruct (str_eqb a b) eqn:E; [|reflexivity]. apply str_eqb_eq in E. contradiction. Qed.

Lemma pytype_eqb_eq (a b : pytype) : pytype_eqb a b = true <-> a = b.
Proof.
  split.
  - destruct a, b; cbn; try discriminate; try reflexivity; intros H; apply str_eqb_eq in H; congruence.
  - intros <-. destruct a; cbn; try reflexivity; apply str_eqb_refl.
Qed.
Lemma pytype_eqb_refl (a : pytype) : pytype_eqb a a = true.
Proof. apply pytype_eqb_eq. reflexivity. Qed.
Lemma pytype_eqb_neq (a b : pytype) : a <> b -> pytype_eqb a b = false.
Proof. intros H. destruct (pytype_eqb a b) eqn:E; [|reflexivity]. apply pytype_eqb_eq in E. contradiction. Qed.

Lemma lookup_app {A} (k : pystr) (l m : list (pystr * A)) :
  lookup k (l ++ m) = match lookup k l with Some v => Some v | None => lookup k m end.
Proof. induction l as [|(k', v) l IH]; cbn; [reflexivity|]. destruct (str_eqb k k'); [reflexivity|exact IH]. Qed.
Lemma lookup_none {A} (k : pystr) (l : list (pystr * A)) : lookup k l = None <-> ~ In k (map fst l).
Proof.
  induction l as [|(k', v) l IH]; cbn; [tauto|]. destruct (str_eqb k k') eqn:E.
  - apply str_eqb_eq in E. split; [discriminate|]. intros H. exfalso. apply H. left. auto.
  - rewrite IH. split.
    + intros H [->|H']; [|contradiction]. rewrite str_eqb_refl in E. discriminate.
    + intros H H'. apply H. right. exact H'.
Qed.
Lemma lookup_in {A} (k : pystr) (v : A) (l : list (pystr * A)) :
  NoDup (map fst l) -> In (k, v) l -> lookup k l = Some v.
Proof.
  induction l as [|(k', v') l IH]; cbn; [contradiction|]. intros N [E|H]; inversion N; subst.
  - injection E as -> ->. rewrite str_eqb_refl. reflexivity.
  - rewrite str_eqb_neq; [apply IH; assumption|]. intros ->. apply H2. apply in_map_iff. exists (k', v). auto.
Qed.
Lemma dict_set_new {A} (k : pystr) (v : A) (l : list (pystr * A)) :
  ~ In k (map fst l) -> dict_set str_eqb k v l = l ++ [(k, v)].
Proof.
  induction l as [|(k', v') l IH]; cbn; [reflexivity|]. intros H.
  rewrite str_eqb_neq by (intros ->; apply H; auto). rewrite IH by (intros H'; apply H; auto). reflexivity.
Qed.
Lemma lookup_dict_set {A} (k k' : pystr) (v : A) (l : list (pystr * A)) :
  lookup k (dict_set str_eqb k' v l) = if str_eqb k k' then Some v else lookup k l.
Proof.
  induction l as [|(k0, v0) l IH]; cbn; [reflexivity|].
  destruct (str_eqb k' k0) eqn:E; cbn.
  - apply str_eqb_eq in E. subst k0. destruct (str_eqb k k'); reflexivity.
  - rewrite IH. destruct (str_eqb k k0) eqn:E2; [|reflexivity]. apply str_eqb_eq in E2. subst k0.
    destruct (str_eqb k k') eqn:E3; [|reflexivity]. apply str_eqb_eq in E3. subst.
    rewrite str_eqb_refl in E. discriminate.
Qed.

Lemma type_set_new {A} (k : pytype) (v : A) (l : list (pytype * A)) :
  ~ In k (map fst l) -> dict_set pytype_eqb k v l = l ++ [(k, v)].
Proof.
  induction l as [|(k', v') l IH]; cbn; [reflexivity|]. intros H.
  rewrite pytype_eqb_neq by (intros ->; apply H; auto). rewrite IH by (intros H'; apply H; auto). reflexivity.
Qed.
Lemma lookup_type_none {A} (k : pytype) (l : list (pytype * A)) : lookup_type k l = None <-> ~ In k (map fst l).
Proof.
  induction l as [|(k', v) l IH]; cbn; [tauto|]. destruct (pytype_eqb k k') eqn:E.
  - apply pytype_eqb_eq in E. split; [discriminate|]. intros H. exfalso. apply H. left. auto.
  - rewrite IH. split.
    + intros H [->|H']; [|contradiction]. rewrite pytype_eqb_refl in E. discriminate.
    + intros H H'. apply H. right. exact H'.
Qed.
Lemma lookup_found {A} (k : pystr) (v : A) l : lookup k l = Some v -> In (k, v) l.
Proof.
  induction l as [|[k' v'] l IH]; cbn; [discriminate|]. destruct (str_eqb k k') eqn:E.
  - apply str_eqb_eq in E. intros [= ->]. left. congruence.
  - intros H. right. auto.
Qed.
Lemma lookup_type_in {A} (k : pytype) (v : A) (l : list (pytype * A)) :
  NoDup (map fst l) -> In (k, v) l -> lookup_type k l = Some v.
Proof.
  induction l as [|(k', v') l IH]; cbn; [contradiction|]. intros N [E|H]; inversion N; subst.
  - injection E as -> ->. rewrite pytype_eqb_refl. reflexivity.
  - rewrite pytype_eqb_neq; [apply IH; assumption|]. intros ->. apply H2. apply in_map_iff. exists (k', v). auto.
Qed.

Lemma find_field_in (f : field) (fs : list field) :
  NoDup (map f_name fs) -> In f fs -> find_field (f_name f) fs = Some f.
Proof.
  induction fs as [|g fs IH]; cbn; [contradiction|]. intros N [->|H]; inversion N; subst.
  - rewrite str_eqb_refl. reflexivity.
  - rewrite str_eqb_neq; [apply IH; assumption|]. intros E. apply H2. rewrite <- E. apply in_map. exact H.
Qed.

(** * Subclasses *)

Section Table.
Context (ct : table).

Lemma subclasses_sound (fuel : nat) (c d : pystr) :
  In d (class_and_subclasses ct fuel c) -> descends ct c d.
Proof.
  revert c. induction fuel as [|n IH]; intros c; cbn; intros [->|H]; try contradiction; try apply descends_refl.
  apply in_flat_map in H. destruct H as (e & He & H). eapply descends_step; [exact He|]. apply IH. exact H.
Qed.
Lemma subclasses_complete (rank : pystr -> nat) (c d : pystr) :
  (forall c d, In d (c_subclasses (class_of_id ct c)) -> rank d < rank c)%nat ->
  descends ct c d -> forall fuel, (rank c <= fuel)%nat -> In d (class_and_subclasses ct fuel c).
Proof.
  intros R D. induction D as [c|c d e He D IH]; intros fuel L.
  - destruct fuel; cbn; auto.
  - pose proof (R _ _ He). destruct fuel as [|n]; [lia|]. cbn. right. apply in_flat_map. exists d.
    split; [exact He|]. apply IH. lia.
Qed.
Lemma subclasses_spec (c d : pystr) : table_ok ct -> In d (subclasses_recursive ct c) <-> descends ct c d.
Proof.
  intros ((rank & R) & _). split; [apply subclasses_sound|]. intros D.
  apply (subclasses_complete rank); [intros x y; apply R|exact D|apply R].
Qed.

Lemma names_read (cs : list pystr) (d : pystr) :
  table_ok ct -> names_differ ct cs -> among ct cs d ->
  lookup (c_name (class_of_id ct d)) (type_names ct cs) = Some d.
Proof.
  intros T N (c & Hc & D). unfold type_names.
  assert (H : In d (flat_map (subclasses_recursive ct) cs)).
  { apply in_flat_map. exists c. split; [exact Hc|]. apply subclasses_spec; assumption. }
  assert (A : Forall (among ct cs) (flat_map (subclasses_recursive ct) cs)).
  { apply Forall_forall. intros x Hx. apply in_flat_map in Hx. destruct Hx as (e & He & Hx).
    exists e. split; [exact He|]. apply subclasses_spec; assumption. }
  assert (Ad : among ct cs d) by (exists c; auto).
  assert (G : forall l acc, Forall (among ct cs) l ->
    (In d l \/ lookup (c_name (class_of_id ct d)) acc = Some d) ->
    lookup (c_name (class_of_id ct d))
      (fold_left (fun d c => dict_set str_eqb (c_name (class_of_id ct c)) c d) l acc) = Some d).
  { induction l as [|x l IH]; intros acc F G; cbn.
    - destruct G as [[]|G]; exact G.
    - inversion F; subst. apply IH; [assumption|]. destruct G as [[->|G]|G].
      + right. rewrite lookup_dict_set, str_eqb_refl. reflexivity.
      + left. exact G.
      + right. rewrite lookup_dict_set. destruct (str_eqb _ _) eqn:E; [|exact G].
        apply str_eqb_eq in E. f_equal. symmetry. apply N; assumption. }
  apply G; auto.
Qed.

(** * Unions *)

Lemma create_basic_ok (t : ty) :
  kind_of t <> None -> (forall c, t = TClass c -> exists fs, attrs_class ct c fs) -> exists b, create_basic ct t = Ok b.
Proof.
  intros K A. destruct t; cbn in *; try (eexists; reflexivity); try contradiction.
  destruct (A c eq_refl) as (fs & F). unfold attrs_class in F. rewrite F. eexists. reflexivity.
Qed.
Lemma create_basic_class (c : pystr) fs : attrs_class ct c fs -> create_basic ct (TClass c) = Ok (BAttrs c).
Proof. intros F. cbn. unfold attrs_class in F. rewrite F. reflexivity. Qed.

(* the JSON kind of what comes out *)
Definition out_type (k : kind) : pytype :=
  match k with
  | JBool => YBool | JInt => YInt | JFloat => YFloat | JStr => YStr | JNull => YNone | JList => YList | JDict => YDict
  end.
Lemma out_type_inj (j k : kind) : out_type j = out_type k -> j = k.
Proof. destruct j, k; cbn; congruence. Qed.
Lemma converted_kind (t : ty) (b : basic) :
  create_basic ct t = Ok b -> exists k, kind_of t = Some k /\ converted_type b = out_type k.
Proof.
  destruct t; cbn; try discriminate; try (intros [= <-]; eexists; split; [reflexivity|reflexivity]).
  destruct (c_fields (class_of_id ct c)); [|discriminate]. intros [= <-]. eexists. split; reflexivity.
Qed.
(* the type of the input determines the kind of the output *)
Lemma input_converted (b b' : basic) t t' :
  create_basic ct t = Ok b -> create_basic ct t' = Ok b' ->
  input_type b = input_type b' -> converted_type b = converted_type b'.
Proof.
  destruct t; cbn; try discriminate;
    try (destruct (c_fields _); [|discriminate]); intros [= <-];
    destruct t'; cbn; try discriminate;
    try (destruct (c_fields _); [|discriminate]); intros [= <-]; cbn; congruence.
Qed.
Lemma input_is_output (b b' : basic) t t' :
  create_basic ct t = Ok b -> create_basic ct t' = Ok b' ->
  converted_type b = input_type b' -> converted_type b = converted_type b'.
Proof.
  destruct t; cbn; try discriminate;
    try (destruct (c_fields _); [|discriminate]); intros [= <-];
    destruct t'; cbn; try discriminate;
    try (destruct (c_fields _); [|discriminate]); intros [= <-]; cbn; congruence.
Qed.

Lemma new_disambiguator_ok (l : list basic) (d : disambiguator) :
  NoDup (map fst (dd_dict d) ++ map input_type l) ->
  NoDup (map fst (dd_obj d) ++ map (fun b => type_name ct (input_type b)) l) ->
  new_disambiguator ct l d =
    Ok (mk_dis (dd_dict d ++ map (fun b => (input_type b, b)) l)
               (dd_obj d ++ map (fun b => (type_name ct (input_type b), b)) l)
               (match dd_default d with None => hd_error l | x => x end)).
Proof.
  revert d. induction l as [|b l IH]; intros d N1 N2; cbn.
  - rewrite !app_nil_r. destruct d as [x y [z|]]; reflexivity.
  - destruct (lookup (type_name ct (input_type b)) (dd_obj d)) eqn:E.
    + exfalso. cbn in N2. apply NoDup_remove_2 in N2. apply N2. apply in_or_app. left.
      destruct (in_dec (list_eq_dec N.eq_dec) (type_name ct (input_type b)) (map fst (dd_obj d))) as [I|I]; [exact I|].
      apply lookup_none in I. congruence.
    + apply lookup_none in E. rewrite IH; cbn.
      * rewrite dict_set_new by exact E. rewrite type_set_new.
        2: { cbn in N1. apply NoDup_remove_2 in N1. intros H. apply N1. apply in_or_app. auto. }
        rewrite <- !app_assoc. cbn. do 2 f_equal. destruct (dd_default d); reflexivity.
      * rewrite type_set_new. 2: { cbn in N1. apply NoDup_remove_2 in N1. intros H. apply N1. apply in_or_app. auto. }
        rewrite map_app, <- app_assoc. exact N1.
      * rewrite dict_set_new by exact E. rewrite map_app, <- app_assoc. exact N2.
Qed.

Definition is_dict (b : basic) : bool := pytype_eqb (converted_type b) YDict.

Lemma setup_multi_ok (l : list ty) (bs : list basic) :
  Forall2 (fun t b => create_basic ct t = Ok b) l bs ->
  forall d o dicts,
  (forall b, In b dicts -> is_dict b = true) ->
  NoDup (map fst o ++ map converted_type (filter (fun b => negb (is_dict b)) bs)) ->
  (exists ds, d = map (fun b => (input_type b, b)) ds /\ o = map (fun b => (converted_type b, b)) ds /\
     Forall (fun b => exists t, create_basic ct t = Ok b) ds) ->
  NoDup (map input_type (dicts ++ filter is_dict bs)) ->
  NoDup (map (fun b => type_name ct (input_type b)) (dicts ++ filter is_dict bs)) ->
  setup_multi ct l d o dicts =
    Ok (mk_union (d ++ map (fun b => (input_type b, b)) (filter (fun b => negb (is_dict b)) bs))
                 (o ++ map (fun b => (converted_type b, b)) (filter (fun b => negb (is_dict b)) bs))
                 (mk_dis (map (fun b => (input_type b, b)) (dicts ++ filter is_dict bs))
                         (map (fun b => (type_name ct (input_type b), b)) (dicts ++ filter is_dict bs))
                         (hd_error (dicts ++ filter is_dict bs)))).
Proof.
  intros H. induction H as [|t b l bs C H IH]; intros d o dicts A N D N1 N2; cbn.
  - cbn in N1, N2. rewrite new_disambiguator_ok; cbn.
    + rewrite !app_nil_r. reflexivity.
    + rewrite app_nil_r in N1. exact N1.
    + rewrite app_nil_r in N2. exact N2.
  - rewrite C. cbn. fold (is_dict b). cbn in N, N1, N2. destruct (is_dict b) eqn:E; cbn in N, N1, N2 |- *.
    + rewrite IH.
      * rewrite <- !app_assoc. reflexivity.
      * intros b0 I. apply in_app_or in I. destruct I as [I|[<-|[]]]; auto.
      * exact N.
      * exact D.
      * rewrite <- app_assoc. exact N1.
      * rewrite <- app_assoc. exact N2.
    + destruct D as (ds & -> & -> & F). unfold add_typed_subconverter.
      assert (N' := N). rewrite map_map in N'. cbn in N'. apply NoDup_remove_2 in N'.
      assert (X : forall b', In b' ds -> converted_type b <> converted_type b').
      { intros b' I Eq. apply N'. apply in_or_app. left. rewrite Eq. apply in_map. exact I. }
      assert (Y : lookup_type (converted_type b) (map (fun b => (input_type b, b)) ds) = None).
      { apply lookup_type_none. rewrite map_map. cbn. intros I. apply in_map_iff in I.
        destruct I as (b' & Eq & I). apply (X _ I). rewrite Forall_forall in F. destruct (F _ I) as (t' & C').
        exact (input_is_output _ _ _ _ C C' (eq_sym Eq)). }
      rewrite Y. cbn.
      rewrite type_set_new; [|rewrite map_map; cbn; intros I; apply in_map_iff in I; destruct I as (b' & Eq & I);
        apply (X _ I); rewrite Forall_forall in F; destruct (F _ I) as (t' & C'); symmetry;
        exact (input_converted _ _ _ _ C' C Eq)].
      rewrite type_set_new; [|rewrite map_map; cbn; intros I; apply in_map_iff in I; destruct I as (b' & Eq & I);
        exact (X _ I (eq_sym Eq))].
      rewrite IH.
      * rewrite <- !app_assoc. reflexivity.
      * exact A.
      * rewrite map_app, <- app_assoc. exact N.
      * exists (ds ++ [b]). rewrite !map_app. split; [reflexivity|]. split; [reflexivity|].
        apply Forall_app. split; [exact F|]. constructor; [|constructor]. exists t. exact C.
      * exact N1.
      * exact N2.
Qed.

Lemma ty_eqb_kind (t u : ty) : ty_eqb t u = true -> is_class t = is_class u /\ kind_of t = kind_of u.
Proof. destruct t, u; cbn; try discriminate; auto. Qed.
Lemma ty_eqb_class (t : ty) (c : pystr) : ty_eqb t (TClass c) = true -> t = TClass c.
Proof. destruct t; cbn; try discriminate. intros H. apply str_eqb_eq in H. congruence. Qed.

Lemma distinct_sub (l : list ty) (t : ty) : In t (distinct_types l) -> In t l.
Proof.
  induction l as [|u l IH]; cbn; [tauto|]. intros [->|H]; [auto|]. apply filter_In in H. destruct H. auto.
Qed.
Lemma distinct_class (l : list ty) (c : pystr) : In (TClass c) l -> In (TClass c) (distinct_types l).
Proof.
  induction l as [|u l IH]; cbn; [tauto|]. intros [->|H]; [auto|].
  destruct (ty_eqb (TClass c) u) eqn:E.
  - left. destruct u; cbn in E; try discriminate. apply str_eqb_eq in E. congruence.
  - right. apply filter_In. rewrite E. auto.
Qed.
Definition not_class (t : ty) : bool := negb (is_class t).
Lemma distinct_other (l : list ty) (t : ty) :
  NoDup (map kind_of (filter not_class l)) -> is_class t = false -> In t l -> In t (distinct_types l).
Proof.
  intros N K. revert N. induction l as [|u l IH]; cbn; [tauto|].
  intros N [->|H]; [auto|]. right. apply filter_In. split.
  - apply IH; [|exact H]. unfold not_class in N at 1. destruct (is_class u); cbn in N; [exact N|].
    inversion N; assumption.
  - destruct (ty_eqb t u) eqn:E; [|reflexivity]. exfalso. apply ty_eqb_kind in E. destruct E as (E1 & E2).
    unfold not_class in N at 1. rewrite <- E1, K in N. cbn in N. inversion N; subst. apply H2. rewrite <- E2.
    apply in_map. apply filter_In. split; [exact H|]. unfold not_class. rewrite K. reflexivity.
Qed.
Lemma filter_filter {A} (f g : A -> bool) (l : list A) : filter f (filter g l) = filter g (filter f l).
Proof.
  induction l as [|x l IH]; cbn; [reflexivity|].
  destruct (g x) eqn:G, (f x) eqn:F; cbn; rewrite ?G, ?F; rewrite IH; reflexivity.
Qed.
Lemma NoDup_map_filter {A B} (f : A -> B) (g : A -> bool) (l : list A) :
  NoDup (map f l) -> NoDup (map f (filter g l)).
Proof.
  induction l as [|x l IH]; cbn; [auto|]. intros N. inversion N; subst. destruct (g x); cbn; [|auto].
  constructor; [|auto]. intros H. apply H1. apply in_map_iff in H. destruct H as (y & E & H).
  apply filter_In in H. apply in_map_iff. exists y. tauto.
Qed.
Lemma distinct_kinds (l : list ty) :
  NoDup (map kind_of (filter not_class l)) -> NoDup (map kind_of (filter not_class (distinct_types l))).
Proof.
  induction l as [|u l IH]; cbn; [auto|]. intros N.
  rewrite filter_filter. destruct (not_class u); cbn in *.
  - inversion N; subst. constructor.
    + intros H. apply H1. apply in_map_iff in H. destruct H as (y & E & H). apply filter_In in H.
      destruct H as (H & _). apply filter_In in H. destruct H as (H & C). apply distinct_sub in H.
      apply in_map_iff. exists y. split; [exact E|]. apply filter_In. auto.
    + apply NoDup_map_filter. apply IH. assumption.
  - apply NoDup_map_filter. apply IH. assumption.
Qed.
Lemma distinct_classes (l : list ty) : NoDup (filter is_class (distinct_types l)).
Proof.
  induction l as [|u l IH]; cbn; [constructor|]. rewrite filter_filter.
  destruct (is_class u) eqn:E.
  - constructor.
    + intros H. apply filter_In in H. destruct H as (_ & H). destruct u; try discriminate. cbn in H.
      rewrite str_eqb_refl in H. discriminate.
    + apply NoDup_filter. exact IH.
  - apply NoDup_filter. exact IH.
Qed.

(* What a union can do *)
Record union_works (ts : list ty) (u : union) : Prop := {
  uw_other : forall t b, In t ts -> is_class t = false -> create_basic ct t = Ok b ->
    lookup_type (input_type b) (dd_dict (u_dis u)) = None /\
    lookup_type (input_type b) (u_dict u) = Some b /\
    lookup_type (converted_type b) (u_obj u) = Some b;
  uw_class : forall c, among ct (classes_of ts) c ->
    lookup_type (YClass c) (dd_dict (u_dis u)) = Some (BAttrs c) /\
    length (dd_obj (u_dis u)) = length (dd_dict (u_dis u)) /\
    (1 <= length (dd_dict (u_dis u)))%nat /\
    lookup (c_name (class_of_id ct c)) (dd_obj (u_dis u)) = Some (BAttrs c) /\
    (length (dd_dict (u_dis u)) = 1%nat -> dd_default (u_dis u) = Some (BAttrs c))
}.

Lemma Forall2_map_choice {A B} (R : A -> B -> Prop) (l : list A) :
  Forall (fun x => exists y, R x y) l -> exists m, Forall2 R l m.
Proof.
  induction l as [|x l IH]; intros F; [exists []; constructor|]. inversion F; subst.
  destruct H1 as (y & H1). destruct (IH H2) as (m & H). exists (y :: m). constructor; assumption.
Qed.

Lemma among_candidates (ts : list ty) (c : pystr) :
  table_ok ct -> among ct (classes_of ts) c <-> In (TClass c) (flat_map (candidates_of ct) ts).
Proof.
  intros T. split.
  - intros (d & Hd & D). unfold classes_of in Hd. apply in_flat_map in Hd. destruct Hd as (t & Ht & Hd).
    destruct t; cbn in Hd; try contradiction. destruct Hd as [->|[]].
    apply in_flat_map. exists (TClass d). split; [exact Ht|]. cbn. apply in_map. apply subclasses_spec; assumption.
  - intros H. apply in_flat_map in H. destruct H as (t & Ht & H).
    destruct t; cbn in H; try (destruct H as [[=]|[]]).
    apply in_map_iff in H. destruct H as (x & [= ->] & H). apply subclasses_spec in H; [|exact T].
    exists c0. split; [|exact H]. unfold classes_of. apply in_flat_map. exists (TClass c0). split; [exact Ht|]. left. reflexivity.
Qed.
Lemma candidates_other (ts : list ty) :
  filter not_class (flat_map (candidates_of ct) ts) = filter not_class ts.
Proof.
  induction ts as [|t ts IH]; cbn; [reflexivity|]. rewrite filter_app, IH.
  destruct t; cbn; try reflexivity. replace (filter not_class (map TClass (subclasses_recursive ct c))) with (@nil ty); [reflexivity|].
  generalize (subclasses_recursive ct c) as l. induction l as [|x l IHl]; cbn; [reflexivity|exact IHl].
Qed.

Lemma filter_Forall2 {A B} (R : A -> B -> Prop) (p : A -> bool) (q : B -> bool) (l : list A) (m : list B) :
  (forall x y, R x y -> p x = q y) -> Forall2 R l m -> Forall2 R (filter p l) (filter q m).
Proof.
  intros H F. induction F as [|x y l m H1 F IH]; cbn; [constructor|]. rewrite (H _ _ H1).
  destruct (q y); [constructor; assumption|exact IH].
Qed.
Lemma Forall2_NoDup_map {A B C D} (R : A -> B -> Prop) (f : A -> C) (g : B -> D) (l : list A) (m : list B) :
  (forall x y x' y', R x y -> R x' y' -> In x l -> In x' l -> g y = g y' -> f x = f x') ->
  Forall2 R l m -> NoDup (map f l) -> NoDup (map g m).
Proof.
  intros H F. induction F as [|x y l m H1 F IH]; cbn; [constructor|]. intros N. inversion N; subst.
  constructor.
  - intros I. apply H3. apply in_map_iff in I. destruct I as (y' & E & I).
    assert (X : exists x', In x' l /\ R x' y').
    { clear - F I. induction F; [contradiction|]. destruct I as [->|I]; [exists x; cbn; auto|].
      destruct (IHF I) as (x' & ? & ?). exists x'. cbn. auto. }
    destruct X as (x' & I' & R'). apply in_map_iff. exists x'. split; [|exact I'].
    symmetry. apply (H _ _ _ _ H1 R'); cbn; auto.
  - apply IH; [|assumption]. intros. eapply H; eauto; right; assumption.
Qed.
Lemma Forall2_in_left {A B} (R : A -> B -> Prop) (l : list A) (m : list B) x :
  Forall2 R l m -> In x l -> exists y, In y m /\ R x y.
Proof.
  intros F I. induction F; [contradiction|]. destruct I as [->|I]; [exists y; cbn; auto|].
  destruct (IHF I) as (y' & ? & ?). exists y'. cbn. auto.
Qed.

Lemma is_dict_class (t : ty) (b : basic) : create_basic ct t = Ok b -> is_class t = is_dict b.
Proof.
  destruct t; cbn; try discriminate; try (intros [= <-]; reflexivity).
  destruct (c_fields _); [|discriminate]. intros [= <-]. reflexivity.
Qed.

Lemma new_union_form (ts : list ty) :
  table_ok ct ->
  Forall (fun t => kind_of t <> None) ts ->
  NoDup (map kind_of (filter (fun t => negb (is_class t)) ts)) ->
  all_attrs ct (classes_of ts) -> names_differ ct (classes_of ts) ->
  exists bs,
    Forall2 (fun t b => create_basic ct t = Ok b) (distinct_types (flat_map (candidates_of ct) ts)) bs /\
    NoDup (map converted_type (filter (fun b => negb (is_dict b)) bs)) /\
    NoDup (map (fun b => input_type b) (filter is_dict bs)) /\
    NoDup (map (fun b => type_name ct (input_type b)) (filter is_dict bs)) /\
    new_union ct ts =
      Ok (mk_union (map (fun b => (input_type b, b)) (filter (fun b => negb (is_dict b)) bs))
                   (map (fun b => (converted_type b, b)) (filter (fun b => negb (is_dict b)) bs))
                   (mk_dis (map (fun b => (input_type b, b)) (filter is_dict bs))
                           (map (fun b => (type_name ct (input_type b), b)) (filter is_dict bs))
                           (hd_error (filter is_dict bs)))).
Proof.
  intros T K N A D. unfold new_union.
  set (cands := flat_map (candidates_of ct) ts).
  set (l := distinct_types cands).
  assert (KL : forall t, In t cands -> kind_of t <> None).
  { intros t I. subst cands. apply in_flat_map in I. destruct I as (u & Hu & I). rewrite Forall_forall in K.
    destruct u; cbn in I; try (destruct I as [<-|[]]; apply K; exact Hu).
    apply in_map_iff in I. destruct I as (x & <- & _). discriminate. }
  assert (CL : forall c, In (TClass c) l -> among ct (classes_of ts) c).
  { intros c I. apply distinct_sub in I. apply among_candidates; assumption. }
  assert (LC : forall c, among ct (classes_of ts) c -> In (TClass c) l).
  { intros c I. apply distinct_class. apply among_candidates in I; assumption. }
  assert (E : exists bs, Forall2 (fun t b => create_basic ct t = Ok b) l bs).
  { apply Forall2_map_choice. apply Forall_forall. intros t I. apply create_basic_ok.
    - apply KL. apply distinct_sub. exact I.
    - intros c ->. apply A. apply CL. exact I. }
  destruct E as (bs & F).
  assert (ND : NoDup (map kind_of (filter not_class l))).
  { apply distinct_kinds. unfold cands. rewrite candidates_other. exact N. }
  assert (F1 : Forall2 (fun t b => create_basic ct t = Ok b) (filter not_class l) (filter (fun b => negb (is_dict b)) bs)).
  { apply filter_Forall2; [|exact F]. intros t b C. unfold not_class. rewrite (is_dict_class _ _ C). reflexivity. }
  assert (F2 : Forall2 (fun t b => create_basic ct t = Ok b) (filter is_class l) (filter is_dict bs)).
  { apply filter_Forall2; [|exact F]. intros t b C. apply is_dict_class. exact C. }
  assert (N1 : NoDup (map converted_type (filter (fun b => negb (is_dict b)) bs))).
  { refine (Forall2_NoDup_map _ kind_of converted_type _ _ _ F1 ND). intros x y x' y' H H' _ _ Eq.
    destruct (converted_kind _ _ H) as (k & K1 & K2). destruct (converted_kind _ _ H') as (k' & K1' & K2').
    rewrite K1, K1'. f_equal. apply out_type_inj. congruence. }
  assert (N2 : NoDup (map (fun b => input_type b) (filter is_dict bs))).
  { refine (Forall2_NoDup_map _ (fun t => t) _ _ _ _ F2 _).
    2: { rewrite map_id. apply distinct_classes. }
    intros x y x' y' H H' I I' Eq. apply filter_In in I. apply filter_In in I'.
    destruct x; try (destruct I; discriminate). destruct x'; try (destruct I'; discriminate). cbn in H, H'.
    destruct (c_fields (class_of_id ct c)); [|discriminate]. destruct (c_fields (class_of_id ct c0)); [|discriminate].
    injection H as <-. injection H' as <-. cbn in Eq. congruence. }
  assert (N3 : NoDup (map (fun b => type_name ct (input_type b)) (filter is_dict bs))).
  { refine (Forall2_NoDup_map _ (fun t => t) _ _ _ _ F2 _).
    2: { rewrite map_id. apply distinct_classes. }
    intros x y x' y' H H' I I' Eq. apply filter_In in I. apply filter_In in I'.
    destruct x; try (destruct I; discriminate). destruct x'; try (destruct I'; discriminate). cbn in H, H'.
    destruct (c_fields (class_of_id ct c)); [|discriminate]. destruct (c_fields (class_of_id ct c0)); [|discriminate].
    injection H as <-. injection H' as <-. cbn in Eq. f_equal.
    apply D; [apply CL; apply I|apply CL; apply I'|exact Eq]. }
  exists bs. do 4 (split; [assumption|]).
  assert (SM := setup_multi_ok l bs F [] [] []). rewrite SM; clear SM.
  2: { intros b []. }
  2: { cbn. exact N1. }
  2: { exists []. repeat split. constructor. }
  2: { cbn. exact N2. }
  2: { cbn. exact N3. }
  reflexivity.
Qed.
Lemma new_union_works (ts : list ty) :
  table_ok ct ->
  Forall (fun t => kind_of t <> None) ts ->
  NoDup (map kind_of (filter (fun t => negb (is_class t)) ts)) ->
  all_attrs ct (classes_of ts) -> names_differ ct (classes_of ts) ->
  exists u, new_union ct ts = Ok u /\ union_works ts u.
Proof.
  intros T K N A D. destruct (new_union_form ts T K N A D) as (bs & F & N1 & N2 & N3 & ->).
  set (cands := flat_map (candidates_of ct) ts) in *.
  set (l := distinct_types cands) in *.
  assert (LC : forall c, among ct (classes_of ts) c -> In (TClass c) l).
  { intros c I. apply distinct_class. apply among_candidates in I; assumption. }
  assert (ND : NoDup (map kind_of (filter not_class l))).
  { apply distinct_kinds. unfold cands. rewrite candidates_other. exact N. }
  assert (F1 : Forall2 (fun t b => create_basic ct t = Ok b) (filter not_class l) (filter (fun b => negb (is_dict b)) bs)).
  { apply filter_Forall2; [|exact F]. intros t b C. unfold not_class. rewrite (is_dict_class _ _ C). reflexivity. }
  assert (F2 : Forall2 (fun t b => create_basic ct t = Ok b) (filter is_class l) (filter is_dict bs)).
  { apply filter_Forall2; [|exact F]. intros t b C. apply is_dict_class. exact C. }
  eexists. split; [reflexivity|]. cbn [app].
  constructor; cbn [u_dict u_obj u_dis dd_dict dd_obj dd_default].
  - intros t b I C B.
    assert (IL : In t (filter not_class l)).
    { apply filter_In. split; [|unfold not_class; rewrite C; reflexivity].
      apply distinct_other; [|exact C|].
      - unfold cands. rewrite candidates_other. exact N.
      - unfold cands. apply in_flat_map. exists t. split; [exact I|]. destruct t; try discriminate; left; reflexivity. }
    destruct (Forall2_in_left _ _ _ _ F1 IL) as (b' & I' & B'). assert (b' = b) by congruence. subst b'.
    split; [|split].
    + apply lookup_type_none. rewrite map_map. cbn. intros H. apply in_map_iff in H. destruct H as (b' & Eq & H).
      apply filter_In in H. destruct H as (H & H'). apply filter_In in I'. destruct I' as (_ & I').
      unfold is_dict in H'. destruct b'; cbn in H'; try discriminate.
      * destruct t0; discriminate H' || idtac. cbn in Eq. clear - B C Eq. destruct t; cbn in B; try discriminate;
          injection B as <-; discriminate.
      * cbn in Eq. clear - B C Eq. destruct t; cbn in B; try discriminate; injection B as <-; discriminate.
    + apply lookup_type_in.
      * rewrite map_map. cbn.
        refine (Forall2_NoDup_map _ kind_of _ _ _ _ F1 ND). intros x y x' y' H H' _ _ Eq.
        destruct (converted_kind _ _ H) as (k & K1 & K2). destruct (converted_kind _ _ H') as (k' & K1' & K2').
        rewrite K1, K1'. f_equal. apply out_type_inj. rewrite <- K2, <- K2'. exact (input_converted _ _ _ _ H H' Eq).
      * apply in_map_iff. exists b. auto.
    + apply lookup_type_in.
      * rewrite map_map. exact N1.
      * apply in_map_iff. exists b. auto.
  - intros c I. destruct (A c I) as (fs & Fc).
    assert (IL : In (TClass c) (filter is_class l)).
    { apply filter_In. split; [|reflexivity]. apply LC. exact I. }
    destruct (Forall2_in_left _ _ _ _ F2 IL) as (b & Ib & B). rewrite (create_basic_class _ _ Fc) in B.
    injection B as <-. split; [|split; [|split; [|split]]].
    + apply lookup_type_in; [rewrite map_map; exact N2|]. apply in_map_iff. exists (BAttrs c). auto.
    + rewrite !map_length. reflexivity.
    + rewrite map_length. destruct (filter is_dict bs); [contradiction|cbn; lia].
    + apply lookup_in; [rewrite map_map; exact N3|]. apply in_map_iff. exists (BAttrs c). auto.
    + rewrite map_length. destruct (filter is_dict bs) as [|x [|y r]]; cbn; intros L; try discriminate.
      destruct Ib as [->|[]]. reflexivity.
Qed.

End Table.
