(* Proofs about dict2object, continued: reading gives exactly what the specification says. *)
From Coq Require Import Lia Permutation.
From Coq Require Import ZifyBool ZifyNat ZifyN.
From Verif Require Import PyBase PyBaseFacts LineModel D2oModel D2oSpec D2oProofs D2oProofs2 D2oReadSpec D2oReadProofs.

Section Table.
Context (ct : table).

Notation name_of c := (c_name (class_of_id ct c)).
Notation to_object := (to_object ct).
Notation reads_as := (reads_as ct).

(** * Lists and tuples *)

Lemma dump_all_ok (F : value -> res value) l m : dump_all F l = Ok m <-> Forall2 (fun x y => F x = Ok y) l m.
Proof.
  revert m. induction l as [|x l IH]; intros m; cbn.
  - split; [intros [= <-]; constructor|intros H; inversion H; reflexivity].
  - destruct (F x) as [y|] eqn:E; cbn.
    + destruct (dump_all F l) as [r|] eqn:E2; cbn.
      * split; [intros [= <-]; constructor; [exact E|apply IH; reflexivity]|].
        intros H; inversion H; subst. apply IH in H4. congruence.
      * split; [discriminate|]. intros H; inversion H; subst. apply IH in H4. discriminate.
    + split; [discriminate|]. intros H; inversion H; congruence.
Qed.
Lemma dump_zip_ok (F : value -> ty -> res value) l : forall us m,
  dump_zip F l us = Ok m <-> Forall2 (fun xu y => F (fst xu) (snd xu) = Ok y) (combine l us) m.
Proof.
  induction l as [|x l IH]; intros [|u us] m; cbn;
    try (split; [intros [= <-]; constructor|intros H; inversion H; reflexivity]).
  destruct (F x u) as [y|] eqn:E; cbn.
  - destruct (dump_zip F l us) as [r|] eqn:E2; cbn.
    + split; [intros [= <-]; constructor; [exact E|apply IH; exact E2]|].
      intros H; inversion H; subst. apply IH in H4. cbn in H2. congruence.
    + split; [discriminate|]. intros H; inversion H; subst. apply IH in H4. congruence.
  - split; [discriminate|]. intros H; inversion H; subst. cbn in H2. congruence.
Qed.
Lemma Forall2_iff {A B} (R S : A -> B -> Prop) l m :
  (forall x y, In x l -> (R x y <-> S x y)) -> Forall2 R l m <-> Forall2 S l m.
Proof.
  intros H. split; intros F; induction F as [|x y l m E F IH]; constructor;
    try (apply H; [left; reflexivity|exact E]); apply IH; intros; apply H; right; assumption.
Qed.
Lemma items_iterated d l : plain d -> items d = Some l <-> iterated d l.
Proof. intros P. destruct P; cbn; split; try discriminate; try contradiction; congruence. Qed.

(** * Names of classes *)

Lemma type_names_sound (cs : list pystr) k c :
  table_ok ct -> lookup k (type_names ct cs) = Some c -> among ct cs c /\ k = name_of c.
Proof.
  intros T. unfold type_names.
  assert (G : forall l acc, (forall e, In e acc -> fst e = name_of (snd e)) ->
    forall e, In e (fold_left (fun d c => dict_set str_eqb (name_of c) c d) l acc) -> fst e = name_of (snd e) /\ (In (snd e) l \/ In e acc)).
  { induction l as [|x l IH]; intros acc H e I; cbn in I; [split; [apply H|right]; exact I|].
    assert (DS : forall acc e, In e (dict_set str_eqb (name_of x) x acc) -> e = (name_of x, x) \/ In e acc).
    { clear. induction acc as [|(k', v') acc IH]; intros e; cbn; [intros [<-|[]]; auto|].
      destruct (str_eqb (name_of x) k') eqn:E.
      - apply str_eqb_eq in E. subst. intros [<-|I]; auto.
      - intros [<-|I]; [auto|]. destruct (IH _ I); auto. }
    assert (H' : forall e, In e (dict_set str_eqb (name_of x) x acc) -> fst e = name_of (snd e)).
    { intros e' I'. apply DS in I'. destruct I' as [->|I']; [reflexivity|exact (H _ I')]. }
    destruct (IH _ H' e I) as (E & [J|J]).
    - split; [exact E|]. left. right. exact J.
    - split; [exact E|]. apply DS in J. destruct J as [->|J]; [left; left; reflexivity|right; exact J]. }
  intros L. apply lookup_found in L. apply G in L; [|intros e []]. cbn in L. destruct L as (E & [I|[]]). split; [|exact E].
  apply in_flat_map in I. destruct I as (x & I & J). exists x. split; [exact I|]. apply subclasses_spec; assumption.
Qed.

(** * What is not an object *)

Lemma reads_list_inv d t v : reads_as d (TList t) v -> exists l m, iterated d l /\ Forall2 (fun x v => reads_as x t v) l m /\ v = VList m.
Proof. intros R. inversion R; subst; [discriminate|]. eauto. Qed.
Lemma reads_var_tuple_inv d t v : reads_as d (TVarTuple t) v -> exists l m, iterated d l /\ Forall2 (fun x v => reads_as x t v) l m /\ v = VTuple m.
Proof. intros R. inversion R; subst; [discriminate|]. eauto. Qed.
Lemma reads_tuple_inv d ts v : reads_as d (TTuple ts) v ->
  exists l m, iterated d l /\ Forall2 (fun xt v => reads_as (fst xt) (snd xt) v) (combine l ts) m /\ v = VTuple m.
Proof. intros R. inversion R; subst; [discriminate|]. eauto. Qed.

Definition parts (t : ty) : list ty :=
  match t with TList u | TVarTuple u => [u] | TTuple us => us | _ => [] end.

Lemma load_other d t b v :
  table_ok ct -> ty_ok ct t -> create_basic ct t = Ok b -> is_class t = false -> plain d ->
  (forall l x u, items d = Some l -> In x l -> In u (parts t) -> forall v, to_object x u = Ok v <-> reads_as x u v) ->
  load ct to_object b d = Ok v <-> reads_as d t v.
Proof.
  intros T O C Q P H. destruct t; cbn in C; try discriminate; injection C as <-; cbn [load].
  1,2,3,4,5: split; [intros [= <-]; constructor; reflexivity|intros R; inversion R; subst; reflexivity].
  - destruct (items d) as [l|] eqn:E.
    + apply items_iterated in E; [|exact P].
      assert (X : forall m, dump_all (fun x => to_object x t) l = Ok m <-> Forall2 (fun x v => reads_as x t v) l m).
      { intros m. rewrite dump_all_ok. apply Forall2_iff. intros x y I. apply (H l); [reflexivity|exact I|left; reflexivity]. }
      split.
      * destruct (dump_all _ l) as [m|] eqn:D; [|discriminate]. intros [= <-]. apply (reads_list _ _ l); [exact E|apply X; reflexivity].
      * intros R. apply reads_list_inv in R. destruct R as (l' & m & IT & R & ->).
        apply items_iterated in E; [|exact P]. apply items_iterated in IT; [|exact P].
        rewrite IT in E. injection E as ->. apply X in R. rewrite R. reflexivity.
    + split; [discriminate|]. intros R. apply reads_list_inv in R. destruct R as (l' & m & IT & R & ->).
      apply items_iterated in IT; [|exact P]. congruence.
  - destruct (items d) as [l|] eqn:E.
    + apply items_iterated in E; [|exact P].
      assert (X : forall m, dump_all (fun x => to_object x t) l = Ok m <-> Forall2 (fun x v => reads_as x t v) l m).
      { intros m. rewrite dump_all_ok. apply Forall2_iff. intros x y I. apply (H l); [reflexivity|exact I|left; reflexivity]. }
      split.
      * destruct (dump_all _ l) as [m|] eqn:D; [|discriminate]. intros [= <-]. apply (reads_var_tuple _ _ l); [exact E|apply X; reflexivity].
      * intros R. apply reads_var_tuple_inv in R. destruct R as (l' & m & IT & R & ->).
        apply items_iterated in E; [|exact P]. apply items_iterated in IT; [|exact P].
        rewrite IT in E. injection E as ->. apply X in R. rewrite R. reflexivity.
    + split; [discriminate|]. intros R. apply reads_var_tuple_inv in R. destruct R as (l' & m & IT & R & ->).
      apply items_iterated in IT; [|exact P]. congruence.
  - destruct (items d) as [l|] eqn:E.
    + apply items_iterated in E; [|exact P].
      assert (X : forall m, dump_zip to_object l ts = Ok m <-> Forall2 (fun xt v => reads_as (fst xt) (snd xt) v) (combine l ts) m).
      { intros m. rewrite dump_zip_ok. apply Forall2_iff. intros (x, u) y I. cbn [fst snd].
        apply (H l); [reflexivity|exact (in_combine_l _ _ _ _ I)|exact (in_combine_r _ _ _ _ I)]. }
      split.
      * destruct (dump_zip _ l ts) as [m|] eqn:D; [|discriminate]. intros [= <-]. apply (reads_tuple _ _ l); [exact E|apply X; reflexivity].
      * intros R. apply reads_tuple_inv in R. destruct R as (l' & m & IT & R & ->).
        apply items_iterated in E; [|exact P]. apply items_iterated in IT; [|exact P].
        rewrite IT in E. injection E as ->. apply X in R. rewrite R. reflexivity.
    + split; [discriminate|]. intros R. apply reads_tuple_inv in R. destruct R as (l' & m & IT & R & ->).
      apply items_iterated in IT; [|exact P]. congruence.
  - destruct d; try (split; [discriminate|intros R; inversion R; discriminate]).
    destruct (lookup e (t_enums ct)) as [ms|] eqn:L.
    + destruct (existsb (str_eqb s) ms) eqn:X.
      * split.
        -- intros [= <-]. apply existsb_exists in X. destruct X as (m & I & X). apply str_eqb_eq in X. subst.
           apply (reads_enum _ _ ms); assumption.
        -- intros R. inversion R; subst; [discriminate|]. reflexivity.
      * split; [discriminate|]. intros R. inversion R; subst; [discriminate|]. exfalso.
        assert (existsb (str_eqb s) ms = true); [|congruence]. apply existsb_exists. exists s.
        rewrite L in H2. injection H2 as ->. split; [assumption|]. apply str_eqb_refl.
    + split; [discriminate|]. intros R. inversion R; subst; [discriminate|]. congruence.
  - destruct d; try (split; [discriminate|intros R; inversion R; discriminate]).
    inversion O; subst. destruct (lookup s (type_names ct cs)) as [c|] eqn:L.
    + destruct (type_names_sound _ _ _ T L) as (A & ->). split.
      * intros [= <-]. constructor. exact A.
      * intros R. inversion R; subst; [discriminate|]. do 2 f_equal. apply H1; auto.
    + split; [discriminate|]. intros R. inversion R; subst; [discriminate|].
      rewrite (names_read ct cs c) in L by assumption. discriminate.
Qed.

(** * Objects *)

Section Fields.
Context (G : value -> ty -> res value) (all : list field).
Context (U : Forall (fun f => ~ two_underscores (f_name f)) all).
Context (N : NoDup (map (fun f => strip_one_underscore (f_name f)) all)).

Lemma find_field_iff k f : find_field k all = Some f <-> In f all /\ f_name f = k.
Proof.
  pose proof (nodup_names _ N) as NN. split.
  - clear. induction all as [|g fs IH]; cbn; [discriminate|]. destruct (str_eqb k (f_name g)) eqn:E.
    + intros [= ->]. apply str_eqb_eq in E. auto.
    + intros H. destruct (IH H). auto.
  - intros (I & <-). apply find_field_in; assumption.
Qed.
Lemma same_stripped f g : In f all -> In g all -> strip_one_underscore (f_name f) = strip_one_underscore (f_name g) -> f = g.
Proof.
  intros I J E. clear U G. induction all as [|h fs IH]; [destruct I|]. cbn in N. inversion N; subst.
  destruct I as [->|I], J as [->|J]; auto.
  - exfalso. apply H1. rewrite E. apply in_map_iff. exists g. auto.
  - exfalso. apply H1. rewrite <- E. apply in_map_iff. exists f. auto.
Qed.
Lemma field_not_tag f : In f all -> str_eqb (f_name f) TYPE_KEY = false.
Proof. intros I. apply not_type_key. rewrite Forall_forall in U. apply U. exact I. Qed.

Lemma load_fields_ok kvs : NoDup (map fst kvs) -> forall acc kws, load_fields G all kvs acc = Ok kws ->
  (forall k, In k (map fst kvs) -> k = TYPE_KEY \/ In k (map f_name all)) /\
  (forall f x, In f all -> In (f_name f, x) kvs -> exists y, G x (f_type f) = Ok y /\ lookup (strip_one_underscore (f_name f)) kws = Some y) /\
  (forall f, In f all -> ~ In (f_name f) (map fst kvs) ->
     lookup (strip_one_underscore (f_name f)) kws = lookup (strip_one_underscore (f_name f)) acc) /\
  (forall k, In k (map fst kws) -> In k (map fst acc) \/ exists f, In f all /\ k = strip_one_underscore (f_name f)).
Proof.
  induction kvs as [|(k, x) kvs IH]; intros ND acc kws; cbn [load_fields].
  - intros [= <-]. split; [intros ? []|]. split; [intros ? ? ? []|]. auto.
  - cbn in ND. inversion ND; subst. destruct (str_eqb k TYPE_KEY) eqn:K.
    + intros H. destruct (IH H2 _ _ H) as (A & B & C & D). apply str_eqb_eq in K. subst k.
      assert (NT : forall f, In f all -> f_name f <> TYPE_KEY).
      { intros f I E. pose proof (field_not_tag f I) as Q. rewrite E, str_eqb_refl in Q. discriminate. }
      split; [|split; [|split; [|exact D]]].
      * intros k [<-|I]; [left; reflexivity|auto].
      * intros f y I [[= E ->]|J]; [exfalso; exact (NT f I (eq_sym E))|exact (B f y I J)].
      * intros f I J. apply C; [exact I|]. intros L. apply J. right. exact L.
    + destruct (find_field k all) as [f|] eqn:FF; [|discriminate]. apply find_field_iff in FF. destruct FF as (I & <-).
      destruct (G x (f_type f)) as [y|] eqn:Gx; [|discriminate]. cbn [bind]. intros H.
      destruct (IH H2 _ _ H) as (A & B & C & D). split; [|split; [|split]].
      * intros k [<-|J]; [right; exact (in_map f_name _ _ I)|auto].
      * intros g z J [[= E ->]|L].
        -- assert (f = g) as <- by (apply same_stripped; congruence). exists y. split; [exact Gx|].
           rewrite C by assumption. rewrite lookup_dict_set, str_eqb_refl. reflexivity.
        -- exact (B g z J L).
      * intros g J L. rewrite C; [|exact J|intros M; apply L; right; exact M]. rewrite lookup_dict_set.
        rewrite str_eqb_neq; [reflexivity|]. intros E. apply L. left. cbn. f_equal. apply same_stripped; auto.
      * intros k J. destruct (D k J) as [M|M]; [|auto].
        assert (DS : forall (acc : list (pystr * value)) s z k, In k (map fst (dict_set str_eqb s z acc)) -> k = s \/ In k (map fst acc)).
        { clear. induction acc as [|(k', v') acc IH]; intros s z k; cbn; [intros [<-|[]]; auto|].
          destruct (str_eqb s k') eqn:E; cbn; [intros [<-|I]; auto|]. intros [<-|I]; [auto|]. destruct (IH _ _ _ I); auto. }
        apply DS in M. destruct M as [->|M]; [right; exists f; auto|auto].
Qed.
Lemma load_fields_goes kvs : NoDup (map fst kvs) ->
  (forall k, In k (map fst kvs) -> k = TYPE_KEY \/ In k (map f_name all)) ->
  (forall f x, In f all -> In (f_name f, x) kvs -> exists y, G x (f_type f) = Ok y) ->
  forall acc, exists kws, load_fields G all kvs acc = Ok kws.
Proof.
  induction kvs as [|(k, x) kvs IH]; intros ND A B acc; cbn [load_fields]; [eexists; reflexivity|].
  cbn in ND. inversion ND; subst.
  assert (IH' : forall acc, exists kws, load_fields G all kvs acc = Ok kws).
  { apply IH; [assumption| |]; intros; [apply A; right; assumption|]. eapply B; [eassumption|]. right. eassumption. }
  destruct (str_eqb k TYPE_KEY) eqn:K; [apply IH'|].
  destruct (A k) as [->|J]; [left; reflexivity|rewrite str_eqb_refl in K; discriminate|].
  apply in_map_iff in J. destruct J as (f & <- & J).
  rewrite (proj2 (find_field_iff (f_name f) f) (conj J eq_refl)).
  destruct (B f x J (or_introl eq_refl)) as (y & ->). cbn [bind]. apply IH'.
Qed.
Lemma init_values_ok fs kws vals : (forall f, In f fs -> In f all) ->
  init_values fs kws = Ok vals <->
  Forall2 (fun f v => lookup (strip_one_underscore (f_name f)) kws = Some v \/
                      lookup (strip_one_underscore (f_name f)) kws = None /\ gives_default f v) fs vals.
Proof.
  revert vals. induction fs as [|f fs IH]; intros vals S; cbn [init_values].
  - split; [intros [= <-]; constructor|intros H; inversion H; reflexivity].
  - rewrite lstrip_one by (rewrite Forall_forall in U; apply U, S; left; reflexivity).
    assert (S' : forall g, In g fs -> In g all) by (intros g I; apply S; right; exact I).
    unfold gives_default.
    split.
    + destruct (lookup (strip_one_underscore (f_name f)) kws) as [v|] eqn:L; [|destruct (f_default f) as [|v|v] eqn:D; [discriminate| |]]; cbn [bind];
        (destruct (init_values fs kws) as [r|] eqn:E; [|discriminate]); intros [= <-]; (constructor; [|apply IH; auto]);
        rewrite L; auto.
    + intros H. inversion H; subst. apply IH in H4; [|exact S'].
      destruct H2 as [->|(-> & [-> | ->])]; cbn [bind]; rewrite H4; reflexivity.
Qed.
End Fields.

Lemma load_object kvs c v :
  table_ok ct -> (exists fs, attrs_class ct c fs) -> NoDup (map fst kvs) ->
  (forall k x t v, In (k, x) kvs -> ty_ok ct t -> to_object x t = Ok v <-> reads_as x t v) ->
  load ct to_object (BAttrs c) (VDict kvs) = Ok v <-> object_read ct kvs c v.
Proof.
  intros T (fs & F) ND H. destruct T as (_ & T & _). destruct (T _ _ F) as (K & N & U).
  assert (FO : fields_of ct c = fs) by (unfold fields_of, attrs_class in *; rewrite F; reflexivity).
  cbn [load]. rewrite FO. rewrite Forall_forall in K. split.
  - destruct (load_fields _ fs kvs []) as [kws|] eqn:L; [|discriminate]. cbn [bind].
    destruct (load_fields_ok _ _ U N _ ND _ _ L) as (A & B & C & D).
    unfold init. rewrite FO. destruct (forallb _ kws); [|discriminate].
    destruct (init_values fs kws) as [vals|] eqn:I; [|discriminate]. cbn [bind].
    destruct (c_check (class_of_id ct c) vals) as [vals'|] eqn:CC; [|discriminate]. intros [= <-].
    apply (object_fields _ _ _ fs vals); [exact F|exact A| |exact CC].
    apply (init_values_ok _ U) in I; [|auto].
    assert (G : forall gs, (forall f, In f gs -> In f fs) -> forall vs,
      Forall2 (fun f v => lookup (strip_one_underscore (f_name f)) kws = Some v \/
                      lookup (strip_one_underscore (f_name f)) kws = None /\ gives_default f v) gs vs ->
      Forall2 (field_read ct kvs) gs vs).
    { intros gs S vs R. induction R as [|f v gs vs E R IH]; constructor; [|apply IH; intros; apply S; right; assumption].
      assert (If : In f fs) by (apply S; left; reflexivity).
      destruct (in_dec (list_eq_dec N.eq_dec) (f_name f) (map fst kvs)) as [J|J].
      - apply in_map_iff in J. destruct J as ((k & x) & E1 & J). cbn in E1. subst k.
        destruct (B _ _ If J) as (y & Gy & Ly). destruct E as [E|(E & _)]; [|congruence].
        assert (y = v) as -> by congruence. apply (field_given _ _ _ x); [exact J|]. apply (H (f_name f)); auto.
      - pose proof (C _ If J) as E0. cbn in E0. destruct E as [E|(_ & E)]; [congruence|].
        apply field_missing; assumption. }
    apply G; auto.
  - intros R. assert (FO' := FO). clear FO. revert FO'. inversion R; subst. intros FO.
    assert (fs0 = fs) by (unfold attrs_class in *; congruence). subst fs0.
    assert (GF : forall gs vs, Forall2 (field_read ct kvs) gs vs -> forall f, In f gs -> forall x, In (f_name f, x) kvs ->
      exists v, reads_as x (f_type f) v).
    { intros gs vs R2. induction R2 as [|f v gs vs E R2 IH]; intros g I x J; [destruct I|]. destruct I as [->|I]; [|exact (IH g I x J)].
      inversion E; subst.
      - assert (x0 = x) as ->; [|eexists; eassumption].
        apply (lookup_in (f_name g)) in H4; [|exact ND]. apply (lookup_in (f_name g)) in J; [|exact ND]. congruence.
      - exfalso. apply H4. apply (in_map fst) in J. exact J. }
    destruct (load_fields_goes to_object fs N kvs ND H1) with (acc := @nil (pystr * value)) as (kws & L).
    { intros f x I J. destruct (GF _ _ H2 f I x J) as (y & Y). exists y. apply (H (f_name f)); auto. }
    rewrite L. cbn [bind]. destruct (load_fields_ok _ _ U N _ ND _ _ L) as (A & B & C & D).
    unfold init. rewrite FO.
    assert (X : forallb (fun kv => existsb (fun f => str_eqb (fst kv) (lstrip_underscores (f_name f))) fs) kws = true).
    { apply forallb_forall. intros kv I. apply existsb_exists. apply (in_map fst) in I. destruct (D _ I) as [[]|(f & If & E)].
      exists f. split; [exact If|]. rewrite Forall_forall in U. rewrite (lstrip_one _ (U _ If)). apply str_eqb_eq. exact E. }
    rewrite X.
    assert (IV : init_values fs kws = Ok vals).
    { apply (init_values_ok _ U); [auto|].
      assert (G : forall gs, (forall f, In f gs -> In f fs) -> forall vs, Forall2 (field_read ct kvs) gs vs ->
        Forall2 (fun f v => lookup (strip_one_underscore (f_name f)) kws = Some v \/
                      lookup (strip_one_underscore (f_name f)) kws = None /\ gives_default f v) gs vs).
      { intros gs S vs R2. induction R2 as [|f v gs vs E R2 IH]; constructor; [|apply IH; intros; apply S; right; assumption].
        assert (If : In f fs) by (apply S; left; reflexivity). inversion E; subst.
        - left. destruct (B _ _ If H4) as (y & Gy & ->). f_equal.
          apply (H (f_name f) x (f_type f) v H4 (K _ If)) in H5. congruence.
        - right. split; [|assumption]. rewrite (C _ If H4). reflexivity. }
      apply G; auto. }
    rewrite IV. cbn [bind]. rewrite H3. reflexivity.
Qed.

(** * Everything *)

Lemma ty_rect' (P : ty -> Prop)
  (H1 : P TBool) (H2 : P TInt) (H3 : P TFloat) (H4 : P TStr) (H5 : P TNone)
  (Hl : forall t, P t -> P (TList t)) (Hv : forall t, P t -> P (TVarTuple t))
  (Ht : forall ts, Forall P ts -> P (TTuple ts))
  (He : forall e, P (TEnum e)) (Hy : forall cs, P (TTypeOf cs)) (Hc : forall c, P (TClass c))
  (Hu : forall ts, P (TUnion ts)) (Ho : P TOther) : forall t, P t.
Proof.
  fix IH 1.
  intros [ | | | | |t|t|ts|e|cs|c|ts| ];
    [exact H1|exact H2|exact H3|exact H4|exact H5|apply Hl, IH|apply Hv, IH| |apply He|apply Hy|apply Hc|apply Hu|exact Ho].
  apply Ht. induction ts as [|t ts IHts]; constructor; [apply IH|exact IHts].
Qed.
Lemma value_rect2 (P : value -> Prop)
  (Hbool : forall b, P (VBool b)) (Hint : forall i, P (VInt i)) (Hfloat : forall f, P (VFloat f))
  (Hstr : forall s, P (VStr s)) (Hnone : P VNone)
  (Hlist : forall l, Forall P l -> P (VList l)) (Htuple : forall l, P (VTuple l))
  (Hdict : forall l, Forall (fun kv => P (snd kv)) l -> P (VDict l)) (Henum : forall e m, P (VEnum e m)) (Htype : forall c, P (VType c))
  (Hobj : forall c l, P (VObj c l)) : forall v, P v.
Proof.
  fix IH 1.
  intros [b|i|f|s| |l|l|l|e m|c|c l];
    [apply Hbool|apply Hint|apply Hfloat|apply Hstr|exact Hnone| |apply Htuple| |apply Henum|apply Htype|apply Hobj].
  - apply Hlist. induction l as [|x l IHl]; constructor; [apply IH|exact IHl].
  - apply Hdict. induction l as [|(k, x) l IHl]; constructor; [apply IH|exact IHl].
Qed.

Lemma chosen_among cs kvs c : chosen ct cs kvs c -> among ct cs c.
Proof. intros C. inversion C; subst; auto. exists c. split; [left; reflexivity|constructor]. Qed.

Definition exact_at (d : value) (t : ty) : Prop := forall v, to_object d t = Ok v <-> reads_as d t v.

Lemma union_fit_class c : ty_ok ct (TClass c) -> union_fit ct [TClass c].
Proof.
  intros O. inversion O; subst. split; [constructor; [discriminate|constructor]|]. split; [constructor|].
  split; assumption.
Qed.

Lemma exact_step (d : value) (t : ty) :
  table_ok ct -> ty_ok ct t -> plain d ->
  (forall t' l x u, (t' = t \/ exists ts, t = TUnion ts /\ In t' ts /\ json_kind d = kind_of t') ->
     items d = Some l -> In x l -> In u (parts t') -> ty_ok ct u -> exact_at x u) ->
  (forall kvs k x u, d = VDict kvs -> In (k, x) kvs -> ty_ok ct u -> exact_at x u) ->
  exact_at d t.
Proof.
  intros T O P HI HD v. rewrite to_object_eq.
  assert (OP : forall t', ty_ok ct t' -> forall u, In u (parts t') -> ty_ok ct u).
  { intros t' O' u I. destruct t'; cbn in I; try contradiction; inversion O'; subst.
    - destruct I as [<-|[]]. assumption.
    - destruct I as [<-|[]]. assumption.
    - rewrite Forall_forall in *. auto. }
  assert (OB : forall kvs c, d = VDict kvs -> (exists fs, attrs_class ct c fs) ->
    load ct to_object (BAttrs c) d = Ok v <-> object_read ct kvs c v).
  { intros kvs c -> A. inversion P; subst. apply load_object; [exact T|exact A|assumption|].
    intros k x u w I Ou. exact (HD kvs k x u eq_refl I Ou w). }
  assert (SIMPLE : forall b, create ct t = Ok (Basic b) -> create_basic ct t = Ok b -> is_class t = false ->
    (c <- create ct t ;; b <- choose_to_object ct c d ;; load ct to_object b d) = Ok v <-> reads_as d t v).
  { intros b C CB Q. rewrite C. cbn [bind choose_to_object]. apply load_other; auto.
    intros l x u E I J. apply (HI t l x u); auto. apply (OP t); auto. }
  destruct t as [ | | | | |t|t|ts|e|cs|c|ts| ]; try (eapply SIMPLE; reflexivity).
  - (* a class *)
    pose proof (union_fit_class _ O) as UF. inversion O; subst. cbn [create].
    destruct (c_subclasses (class_of_id ct c)) as [|s ss] eqn:E.
    + assert (ONLY : forall e, among ct [c] e -> e = c).
      { intros e (x & [<-|[]] & D). inversion D; subst; [reflexivity|]. rewrite E in H. destruct H. }
      assert (AC : among ct [c] c) by (exists c; split; [left; reflexivity|constructor]).
      destruct (H0 c AC) as (fs & F). rewrite (create_basic_class _ _ _ F). cbn [bind choose_to_object].
      destruct d as [ | | | | | | |kvs| | | ];
        try (cbn [load]; split; [discriminate|intros R; inversion R; discriminate]).
      rewrite (OB kvs c eq_refl (ex_intro _ fs F)). split.
      * intros R. apply (reads_class _ _ _ c); [|exact R]. apply chosen_only; assumption.
      * intros R. inversion R; subst; [discriminate|]. 
        match goal with CH : chosen _ _ _ ?e, OR : object_read _ _ ?e _ |- _ =>
          rewrite (ONLY e (chosen_among _ _ _ CH)) in OR; exact OR end.
    + destruct (union_chooses ct [TClass c] T UF) as (u & EU & CH). rewrite EU. cbn [bind].
      specialize (CH d). split.
      * destruct (choose_to_object ct (Union u) d) as [b|] eqn:EC; [|discriminate]. cbn [bind].
        destruct (proj1 (CH b P) eq_refl) as [(kvs & e & -> & C1 & ->)|(t & [<-|[]] & Q & _)]; [|discriminate].
        intros L. apply (reads_class _ _ _ e); [exact C1|]. apply OB; [reflexivity| |exact L].
        apply H0. exact (chosen_among _ _ _ C1).
      * intros R. inversion R; subst; [discriminate|].
        rewrite (proj2 (CH (BAttrs d0) P)) by (left; exists kvs, d0; auto). cbn [bind].
        apply (OB kvs); [reflexivity| |assumption].
        apply H0. match goal with CH : chosen _ _ _ d0 |- _ => exact (chosen_among _ _ _ CH) end.
  - (* a union *)
    inversion O; subst. cbn [create].
    assert (UF : union_fit ct ts) by (repeat split; assumption).
    assert (AT : forall kvs e, chosen ct (classes_of ts) kvs e -> exists fs, attrs_class ct e fs).
    { intros kvs e C1. match goal with AA : all_attrs ct _ |- _ => apply AA end. exact (chosen_among _ _ _ C1). }
    destruct (union_chooses ct ts T UF) as (u & EU & CH). rewrite EU. cbn [bind]. specialize (CH d).
    assert (LO : forall t b, In t ts -> is_class t = false -> json_kind d = kind_of t -> create_basic ct t = Ok b ->
      load ct to_object b d = Ok v <-> reads_as d t v).
    { intros t b I Q J CB. assert (Ot : ty_ok ct t) by (match goal with F : Forall (ty_ok ct) ts |- _ => rewrite Forall_forall in F; exact (F _ I) end).
      apply load_other; auto. intros l x w E K M. apply (HI t l x w); auto; [right; exists ts; auto|apply (OP t); auto]. }
    split.
    + destruct (choose_to_object ct (Union u) d) as [b|] eqn:EC; [|discriminate]. cbn [bind].
      destruct (proj1 (CH b P) eq_refl) as [(kvs & e & -> & C1 & ->)|(t & I & Q & J & CB)].
      * intros L. apply (reads_union_class _ _ _ e); [exact C1|]. apply OB; [reflexivity|exact (AT _ _ C1)|exact L].
      * intros L. apply (reads_union_other _ _ t); auto. apply (LO t b); assumption.
    + intros R. inversion R; subst; [discriminate| |].
      * rewrite (proj2 (CH (BAttrs d0) P)) by (left; exists kvs, d0; auto). cbn [bind].
        apply (OB kvs); [reflexivity|eauto|assumption].
      * destruct (create_basic_ok ct t) as (b & CB).
        { match goal with F : Forall (fun t => kind_of t <> None) ts |- _ => rewrite Forall_forall in F; apply F; assumption end. }
        { intros c ->. discriminate. }
        rewrite (proj2 (CH b P)) by (right; exists t; auto). cbn [bind]. apply (LO t b); assumption.
  - inversion O.
Qed.

Lemma exact_string t : table_ok ct -> forall s, ty_ok ct t -> exact_at (VStr s) t.
Proof.
  intros T. induction t using ty_rect'; intros s O; (apply exact_step; [exact T|exact O|constructor| |intros; discriminate]);
    intros t' l x u [->|(ts' & E & I & J)] HI Hx Hu Ou; try discriminate; cbn in Hu; try contradiction;
    try (cbn in J; destruct t'; try discriminate; contradiction).
  all: cbn in HI; injection HI as <-; apply in_map_iff in Hx; destruct Hx as (ch & <- & _).
  - destruct Hu as [<-|[]]. apply IHt. exact Ou.
  - destruct Hu as [<-|[]]. apply IHt. exact Ou.
  - rewrite Forall_forall in H. apply H; assumption.
Qed.

Lemma reading_exact d : table_ok ct -> plain d -> forall t, ty_ok ct t -> exact_at d t.
Proof.
  intros T. induction d using value_rect2; intros P t O; try (inversion P; fail); try (apply exact_string; assumption);
    apply exact_step; try assumption; try (intros; discriminate).
  - intros t' m x u _ [= <-] I _ Ou. inversion P; subst. rewrite Forall_forall in *. apply H; auto.
  - intros t' m x u _ E I _ Ou. cbn in E. injection E as <-. apply in_map_iff in I. destruct I as (kv & <- & _).
    apply exact_string; assumption.
  - intros kvs k x u [= <-] I Ou. inversion P as [| | | | | |? ND PK]; subst.
    rewrite Forall_forall in H, PK. apply (H (k, x) I); [exact (PK (k, x) I)|exact Ou].
Qed.

(** * Consequences *)

Lemma class_read d c v : table_ok ct -> ty_ok ct (TClass c) -> plain d ->
  to_object d (TClass c) = Ok v <-> exists kvs e, d = VDict kvs /\ chosen ct [c] kvs e /\ object_read ct kvs e v.
Proof.
  intros T O P. rewrite (reading_exact d T P _ O v). split.
  - intros R. inversion R; subst; [discriminate|]. eauto.
  - intros (kvs & e & -> & C & R). exact (reads_class _ _ _ _ _ C R).
Qed.
Lemma union_read d ts v : table_ok ct -> ty_ok ct (TUnion ts) -> plain d ->
  to_object d (TUnion ts) = Ok v <->
  (exists kvs e, d = VDict kvs /\ chosen ct (classes_of ts) kvs e /\ object_read ct kvs e v) \/
  (exists t, In t ts /\ is_class t = false /\ json_kind d = kind_of t /\ to_object d t = Ok v).
Proof.
  intros T O P. rewrite (reading_exact d T P _ O v). inversion O as [| | | | | | | | | | |? OT]; subst. rewrite Forall_forall in OT. split.
  - intros R. inversion R; subst; [discriminate| |].
    + left. eauto.
    + right. exists t. repeat split; auto. apply (reading_exact d T P); auto.
  - intros [(kvs & e & -> & C & R)|(t & I & Q & J & E)]; [exact (reads_union_class _ _ _ _ _ C R)|].
    apply (reads_union_other _ _ t); auto. apply (reading_exact d T P); auto.
Qed.

Lemma required_given kvs fs vals f : Forall2 (field_read ct kvs) fs vals -> In f fs -> f_default f = NoDefault -> In (f_name f) (map fst kvs).
Proof.
  intros F I D. induction F as [|g v fs vals E F IH]; [destruct I|]. destruct I as [->|I]; [|auto].
  inversion E; subst.
  - change (f_name f) with (fst (f_name f, x)). apply in_map. assumption.
  - unfold gives_default in *. destruct H0; congruence.
Qed.
Lemma object_shape kvs c v : object_read ct kvs c v -> exists fs vals, v = VObj c vals /\ attrs_class ct c fs /\
  (forall k, In k (map fst kvs) -> k = TYPE_KEY \/ In k (map f_name fs)) /\
  (forall f, In f fs -> f_default f = NoDefault -> In (f_name f) (map fst kvs)).
Proof.
  intros R. inversion R; subst. exists fs, vals'. repeat split; auto. intros f. apply (required_given _ _ vals). assumption.
Qed.

Lemma object_permuted kvs kvs' c v : Permutation kvs kvs' -> object_read ct kvs c v -> object_read ct kvs' c v.
Proof.
  intros P R. inversion R; subst. apply (object_fields _ _ _ fs vals); auto.
  - intros k I. apply H0. apply (Permutation_in _ (Permutation_map fst (Permutation_sym P))). exact I.
  - eapply Forall2_iff; [|exact H1]. intros f w _. split; intros F; inversion F; subst.
    + apply (field_given _ _ _ x); [exact (Permutation_in _ (Permutation_sym P) H3)|assumption].
    + apply field_missing; [|assumption]. intros I. apply H3. exact (Permutation_in _ (Permutation_map fst P) I).
    + apply (field_given _ _ _ x); [exact (Permutation_in _ P H3)|assumption].
    + apply field_missing; [|assumption]. intros I. apply H3. exact (Permutation_in _ (Permutation_map fst (Permutation_sym P)) I).
Qed.
Lemma chosen_permuted cs kvs kvs' c : Permutation kvs kvs' -> chosen ct cs kvs c -> chosen ct cs kvs' c.
Proof.
  intros P C. inversion C; subst.
  - apply chosen_only; assumption.
  - apply (chosen_named _ _ _ c d); auto. exact (Permutation_in _ P H2).
  - apply (chosen_first _ _ _ c cs' d); auto. intros I. apply H2. exact (Permutation_in _ (Permutation_map fst (Permutation_sym P)) I).
Qed.
Lemma order_irrelevant kvs kvs' t v : table_ok ct -> ty_ok ct t ->
  match t with TClass _ | TUnion _ => True | _ => False end ->
  plain (VDict kvs) -> Permutation kvs kvs' ->
  to_object (VDict kvs) t = Ok v -> to_object (VDict kvs') t = Ok v.
Proof.
  intros T O Q P PE E. assert (P' : plain (VDict kvs')).
  { inversion P; subst. constructor; [exact (Permutation_NoDup (Permutation_map fst PE) H0)|exact (Permutation_Forall PE H1)]. }
  destruct t; try contradiction.
  - apply class_read in E; auto. destruct E as (l & e & [= <-] & C & R). apply class_read; auto.
    exists kvs', e. split; [reflexivity|]. split; [exact (chosen_permuted _ _ _ _ PE C)|exact (object_permuted _ _ _ _ PE R)].
  - apply union_read in E; auto. destruct E as [(l & e & [= <-] & C & R)|(t & _ & X & J & _)]; [|destruct t; discriminate].
    apply union_read; auto. left.
    exists kvs', e. split; [reflexivity|]. split; [exact (chosen_permuted _ _ _ _ PE C)|exact (object_permuted _ _ _ _ PE R)].
Qed.

Lemma tag_ignored kvs c x v : table_ok ct -> ty_ok ct (TClass c) -> c_subclasses (class_of_id ct c) = [] ->
  plain (VDict ((TYPE_KEY, x) :: kvs)) ->
  to_object (VDict ((TYPE_KEY, x) :: kvs)) (TClass c) = Ok v <-> to_object (VDict kvs) (TClass c) = Ok v.
Proof.
  intros T O S P. assert (P' : plain (VDict kvs)).
  { inversion P; subst. cbn in H0. inversion H0; inversion H1; subst. constructor; assumption. }
  assert (ONLY : forall e, among ct [c] e -> e = c).
  { intros e (y & [<-|[]] & D). inversion D; subst; [reflexivity|]. rewrite S in H. destruct H. }
  assert (NT : forall fs f, attrs_class ct c fs -> In f fs -> f_name f <> TYPE_KEY).
  { intros fs f F I E. destruct T as (_ & T & _). destruct (T _ _ F) as (_ & _ & U). rewrite Forall_forall in U.
    apply (U _ I). rewrite E. eexists. reflexivity. }
  assert (AC : among ct [c] c) by (exists c; split; [left; reflexivity|constructor]).
  rewrite !class_read by assumption. split; intros (l & e & [= <-] & C & R);
    pose proof (ONLY e (chosen_among _ _ _ C)) as ->;
    match goal with |- exists k' e', VDict ?k = _ /\ _ => exists k, c end;
    (split; [reflexivity|]); (split; [apply chosen_only; assumption|]);
    inversion R; subst; apply (object_fields _ _ _ fs vals); auto.
  - intros k I. apply H0. right. exact I.
  - eapply Forall2_iff; [|exact H1]. intros f w If. split; intros F; inversion F; subst.
    + apply (field_given _ _ _ x0); [right; assumption|assumption].
    + apply field_missing; [|assumption]. intros [I|I]; [exact (NT fs f H If (eq_sym I))|contradiction].
    + destruct H3 as [H3|H3]; [injection H3 as E _; destruct (NT fs f H If (eq_sym E))|].
      apply (field_given _ _ _ x0); assumption.
    + apply field_missing; [|assumption]. intros I. apply H3. right. exact I.
  - intros k [<-|I]; [left; reflexivity|auto].
  - eapply Forall2_iff; [|exact H1]. intros f w If. split; intros F; inversion F; subst.
    + destruct H3 as [H3|H3]; [injection H3 as E _; destruct (NT fs f H If (eq_sym E))|].
      apply (field_given _ _ _ x0); assumption.
    + apply field_missing; [|assumption]. intros I. apply H3. right. exact I.
    + apply (field_given _ _ _ x0); [right; assumption|assumption].
    + apply field_missing; [|assumption]. intros [I|I]; [exact (NT fs f H If (eq_sym I))|contradiction].
Qed.

(** * Classes of the same name *)

Notation nm b := (type_name ct (input_type b)).
Lemma disambiguator_names l : forall d d', new_disambiguator ct l d = Ok d' ->
  NoDup (map (fun b => nm b) l) /\ forall b, In b l -> ~ In (nm b) (map fst (dd_obj d)).
Proof.
  induction l as [|b l IH]; intros d d'; cbn; [intros _; split; [constructor|intros b []]|].
  destruct (lookup (nm b) (dd_obj d)) eqn:L; [discriminate|]. apply lookup_none in L. intros H.
  destruct (IH _ _ H) as (A & B). cbn in B. rewrite dict_set_new in B by exact L. split.
  - constructor; [|exact A]. intros I. apply in_map_iff in I. destruct I as (x & E & I). apply (B x I).
    rewrite map_app. apply in_or_app. right. left. cbn. symmetry. exact E.
  - intros x [<-|I]; [exact L|]. intros J. apply (B x I). rewrite map_app. apply in_or_app. left. exact J.
Qed.
Lemma union_names l : forall d o dicts u, setup_multi ct l d o dicts = Ok u ->
  exists bs, NoDup (map (fun b => nm b) (dicts ++ bs)) /\ forall c, In (TClass c) l -> In (BAttrs c) bs.
Proof.
  induction l as [|t l IH]; intros d o dicts u; cbn [setup_multi].
  - destruct (new_disambiguator ct dicts _) as [x|] eqn:E; [|discriminate]. intros _. exists []. rewrite app_nil_r.
    split; [exact (proj1 (disambiguator_names _ _ _ E))|intros c []].
  - destruct (create_basic ct t) as [b|] eqn:C; [|discriminate]. cbn [bind].
    destruct (pytype_eqb (converted_type b) YDict) eqn:D.
    + intros H. destruct (IH _ _ _ _ H) as (bs & A & B). exists (b :: bs). rewrite <- app_assoc in A. split; [exact A|].
      intros c [->|I]; [|right; auto]. left. cbn in C. destruct (c_fields _); congruence.
    + destruct (add_typed_subconverter d o b) as [(d', o')|]; [|discriminate]. cbn [bind]. intros H.
      destruct (IH _ _ _ _ H) as (bs & A & B). exists bs. split; [exact A|]. intros c [->|I]; [|auto].
      cbn in C. destruct (c_fields _); [|discriminate]. injection C as <-. discriminate.
Qed.
Lemma collision ts c d : table_ok ct -> among ct (classes_of ts) c -> among ct (classes_of ts) d ->
  c <> d -> name_of c = name_of d -> exists e, new_union ct ts = Err e.
Proof.
  intros T A B N E. destruct (new_union ct ts) as [u|e] eqn:U; [|eauto]. exfalso. unfold new_union in U.
  destruct (union_names _ _ _ _ _ U) as (bs & ND & I).
  apply among_candidates in A; [|exact T]. apply among_candidates in B; [|exact T].
  apply distinct_class in A. apply distinct_class in B. apply I in A. apply I in B. cbn [app] in ND.
  assert (G : forall l : list basic, NoDup (map (fun b => nm b) l) -> forall x y, In x l -> In y l -> nm x = nm y -> x = y).
  { clear. induction l as [|z l IH]; intros ND x y I J E; [destruct I|]. cbn in ND. inversion ND; subst.
    destruct I as [->|I], J as [->|J]; auto.
    - exfalso. apply H1. rewrite E. exact (in_map (fun b => nm b) _ _ J).
    - exfalso. apply H1. rewrite <- E. exact (in_map (fun b => nm b) _ _ I). }
  apply N. pose proof (G _ ND _ _ A B E). congruence.
Qed.
Lemma collision_refused t c d v : table_ok ct -> among ct (classes_at t) c -> among ct (classes_at t) d ->
  c <> d -> name_of c = name_of d -> (exists e, to_dict ct v t = Err e) /\ (exists e, to_object v t = Err e).
Proof.
  intros T A B N E. assert (X : exists e, create ct t = Err e).
  { destruct t; try solve [destruct A as (? & [] & _)].
    - cbn [create]. destruct (c_subclasses (class_of_id ct c0)) as [|s ss] eqn:S.
      + exfalso. apply N. assert (O : forall x, among ct (classes_at (TClass c0)) x -> x = c0).
        { intros z (y & [<-|[]] & D). inversion D; subst; [reflexivity|]. rewrite S in H. destruct H. }
        rewrite (O c A), (O d B). reflexivity.
      + destruct (collision [TClass c0] c d T A B N E) as (e & ->). cbn. eauto.
    - cbn [create]. destruct (collision ts c d T A B N E) as (e & ->). cbn. eauto. }
  destruct X as (e & X). split; exists e; [rewrite to_dict_eq|rewrite to_object_eq]; rewrite X; reflexivity.
Qed.

End Table.
