(* Proofs about dict2object, part 3: values that are alike are equal. *)
From Coq Require Import Lia Floats.SpecFloat.
From Coq Require Import ZifyBool ZifyNat ZifyN.
From Verif Require Import PyBase PyBaseFacts LineModel D2oModel D2oSpec D2oProofs D2oProofs2.

Section Table.
Context (ct : table).

Definition eq_fields : list field -> list value -> list value -> bool :=
  fix go (fs : list field) (l m : list value) {struct l} : bool :=
    match fs, l, m with
    | f :: fs, x :: l, y :: m => (negb (f_eq f) || py_eq ct x y) && go fs l m
    | [], [], [] => true
    | _, _, _ => false
    end.
Lemma py_eq_obj (c c' : pystr) (l m : list value) :
  py_eq ct (VObj c l) (VObj c' m) =
    (str_eqb c c' && match c_fields (class_of_id ct c) with None => false | Some fs => eq_fields fs l m end).
Proof. reflexivity. Qed.

Lemma f_eqb_refl (f : pyfloat) : f <> S754_nan -> f_eqb f f = true.
Proof.
  intros H. unfold f_eqb, SFeqb. destruct f as [s|s| |s m e]; cbn; try contradiction; try reflexivity.
  - destruct s; reflexivity.
  - destruct s; rewrite Z.compare_refl, Pos.compare_refl; reflexivity.
Qed.

(* values that can be compared at all *)
Inductive shaped : value -> Prop :=
| shaped_bool b : shaped (VBool b)
| shaped_int i : shaped (VInt i)
| shaped_float f : shaped (VFloat f)
| shaped_str s : shaped (VStr s)
| shaped_none : shaped VNone
| shaped_list l : Forall shaped l -> shaped (VList l)
| shaped_tuple l : Forall shaped l -> shaped (VTuple l)
| shaped_enum e m : shaped (VEnum e m)
| shaped_type c : shaped (VType c)
| shaped_obj c fs l : attrs_class ct c fs -> Forall2 (fun x f => f_eq f = true -> shaped x) l fs -> shaped (VObj c l).

Lemma eq_shaped (v : value) : forall w, py_eq ct v w = true -> shaped v.
Proof.
  induction v using value_rect'; intros w E; try (constructor; fail).
  - destruct w; try discriminate. cbn in E. constructor. revert l0 E. induction H as [|x l P F IH]; intros m E; [constructor|].
    destruct m as [|y m]; [discriminate|]. cbn in E. apply andb_true_iff in E. destruct E as (E1 & E2).
    constructor; [exact (P _ E1)|exact (IH _ E2)].
  - destruct w; try discriminate. cbn in E. constructor. revert l0 E. induction H as [|x l P F IH]; intros m E; [constructor|].
    destruct m as [|y m]; [discriminate|]. cbn in E. apply andb_true_iff in E. destruct E as (E1 & E2).
    constructor; [exact (P _ E1)|exact (IH _ E2)].
  - destruct w; discriminate.
  - destruct w; try discriminate. rewrite py_eq_obj in E. apply andb_true_iff in E. destruct E as (_ & E).
    destruct (c_fields (class_of_id ct c)) as [fs|] eqn:A; [|discriminate].
    apply (shaped_obj c fs); [exact A|]. clear A. revert fs fields E. induction H as [|x l P F IH]; intros fs m E.
    + destruct fs; [constructor|destruct m; discriminate].
    + destruct fs as [|f fs]; [discriminate|]. destruct m as [|y m]; [discriminate|]. cbn in E.
      apply andb_true_iff in E. destruct E as (E1 & E2). constructor; [|exact (IH _ _ E2)].
      intros Q. rewrite Q in E1. exact (P _ E1).
Qed.

Lemma typed_shaped (v : value) : forall t, typed ct v t -> shaped v.
Proof.
  induction v using value_rect'; intros t T; try (constructor; fail).
  - constructor. assert (T' : exists u, Forall (fun v => typed ct v u) l).
    { remember (VList l) as w. induction T; try discriminate; [injection Heqw as ->; eauto|apply IHT; assumption]. }
    destruct T' as (u & T'). rewrite Forall_forall in *. intros x I. exact (H x I u (T' x I)).
  - constructor. assert (T' : exists us, Forall2 (typed ct) l us).
    { remember (VTuple l) as w. induction T; try discriminate; [| |apply IHT; assumption]; injection Heqw as ->; [|eauto].
      exists (map (fun _ => t) l). clear - H0. induction H0; cbn; constructor; assumption. }
    destruct T' as (us & T'). clear T. induction T'; [constructor|]. inversion H; subst. constructor; [eauto|auto].
  - exfalso. remember (VDict l) as w. induction T; try discriminate. apply IHT. assumption.
  - assert (T' : exists fs, attrs_class ct c fs /\ Forall2 (typed_field ct) l fs).
    { remember (VObj c l) as w. induction T; try discriminate; [injection Heqw as -> ->; eauto|apply IHT; assumption]. }
    destruct T' as (fs & A & F). apply (shaped_obj c fs); [exact A|]. clear A T. induction F as [|x f l fs T F IH]; [constructor|].
    inversion H; subst. constructor; [|auto]. intros _. inversion T; subst.
    + exact (H2 _ H0).
    + exact (eq_shaped _ _ H1).
Qed.

Lemma list_eqb_alike (l m : list value) :
  Forall2 (fun x y => py_eq ct x y = true) l m -> list_eqb (py_eq ct) l m = true.
Proof. intros F. induction F; cbn; [reflexivity|]. rewrite H. exact IHF. Qed.

Lemma alike_equal (v : value) : forall w, shaped v -> without_nan v -> alike ct v w -> py_eq ct v w = true.
Proof.
  induction v using value_rect'; intros w SH W A.
  - inversion A; subst. cbn. apply eqb_reflx.
  - inversion A; subst. cbn. apply Z.eqb_refl.
  - inversion A; subst. inversion W; subst. apply f_eqb_refl. assumption.
  - inversion A; subst. apply str_eqb_refl.
  - inversion A; subst. reflexivity.
  - inversion SH; subst. inversion W; subst.
    assert (X : exists m, w = VList m /\ Forall2 (alike ct) l m).
    { inversion A; subst; [|eauto]. exists l. split; [reflexivity|]. clear. induction l; constructor; [constructor|assumption]. }
    destruct X as (m & -> & X). apply list_eqb_alike. clear A SH W. induction X; [constructor|].
    inversion H; inversion H1; inversion H2; subst. constructor; [|auto].
    match goal with P : forall w, shaped _ -> _ |- _ => apply P; assumption end.
  - inversion SH; subst. inversion W; subst.
    assert (X : exists m, w = VTuple m /\ Forall2 (alike ct) l m).
    { inversion A; subst; [|eauto]. exists l. split; [reflexivity|]. clear. induction l; constructor; [constructor|assumption]. }
    destruct X as (m & -> & X). apply list_eqb_alike. clear A SH W. induction X; [constructor|].
    inversion H; inversion H1; inversion H2; subst. constructor; [|auto].
    match goal with P : forall w, shaped _ -> _ |- _ => apply P; assumption end.
  - inversion SH.
  - inversion A; subst. cbn. rewrite !str_eqb_refl. reflexivity.
  - inversion A; subst. apply str_eqb_refl.
  - inversion SH; subst. inversion W; subst.
    assert (X : exists m, w = VObj c m /\ alike_fields ct fs l m).
    { inversion A; subst.
      - exists l. split; [reflexivity|]. clear - H3. induction H3; constructor; [constructor|assumption].
      - unfold attrs_class in *. assert (fs0 = fs) by congruence. subst. eauto. }
    destruct X as (m & -> & X). rewrite py_eq_obj, str_eqb_refl. unfold attrs_class in H2. rewrite H2.
    clear A SH W H2. induction X as [|f fs x y l m AL X IH|f fs x d l m D Q X IH]; [reflexivity| |]; cbn;
      inversion H; inversion H3; inversion H1; subst; apply andb_true_iff; (split; [|apply IH; assumption]).
    + destruct (f_eq f) eqn:EF; [|reflexivity]. cbn. apply H4; auto.
    + rewrite Q. apply orb_true_r.
Qed.

(* to_object(to_dict(v)) == v *)
Lemma round_trip_equal (v : value) (t : ty) :
  table_ok ct -> typed ct v t -> ty_ok ct t -> without_nan v ->
  exists d v', to_dict ct v t = Ok d /\ to_object ct d t = Ok v' /\ py_eq ct v v' = true.
Proof.
  intros T TV OK W. destruct (round_trip_all ct v t T TV OK) as (d & v' & E1 & _ & E3 & E4).
  exists d, v'. split; [exact E1|]. split; [exact E3|]. exact (alike_equal v v' (typed_shaped v t TV) W E4).
Qed.

Lemma alike_tidy (v : value) : forall w, tidy ct v -> alike ct v w -> v = w.
Proof.
  assert (FL : forall l m, Forall (fun v => forall w, tidy ct v -> alike ct v w -> v = w) l -> Forall (tidy ct) l -> Forall2 (alike ct) l m -> l = m).
  { intros l m H T X. induction X; [reflexivity|]. inversion H; inversion T; subst. f_equal; auto. }
  induction v using value_rect'; intros w T A; inversion A; subst; try reflexivity.
  - inversion T; subst. f_equal. apply FL; assumption.
  - inversion T; subst. f_equal. apply FL; assumption.
  - inversion T; subst. f_equal. unfold attrs_class in *.
    match goal with P : c_fields _ = Some ?a, Q : c_fields _ = Some ?b |- _ => assert (a = b) by congruence; subst a end.
    clear A T. repeat match goal with P : c_fields _ = _ |- _ => clear P end.
    match goal with X : alike_fields _ _ _ _ |- _ => induction X as [|f fs' x y l m AL X IH|f fs' x d l m D Q X IH] end; [reflexivity| |];
      match goal with F1 : Forall (fun v => forall w, _) (_ :: _), F2 : Forall (tidy _) (_ :: _), F3 : Forall2 _ (_ :: _) (_ :: _) |- _ =>
        inversion F1; inversion F2; inversion F3; subst end; f_equal; auto.
Qed.
(* to_object(to_dict(v)) is v *)
Lemma round_trip_exact (v : value) (t : ty) :
  table_ok ct -> typed ct v t -> ty_ok ct t -> tidy ct v ->
  exists d, to_dict ct v t = Ok d /\ to_object ct d t = Ok v.
Proof.
  intros T TV OK W. destruct (round_trip_all ct v t T TV OK) as (d & v' & E1 & _ & E3 & E4).
  exists d. split; [exact E1|]. rewrite (alike_tidy v v' W E4). exact E3.
Qed.

(* the keys of the data of an object *)
Lemma dump_fields_keys F all fs : forall vals kvs, dump_fields ct F all fs vals = Ok kvs -> map fst kvs = changed_fields ct fs vals.
Proof.
  induction fs as [|f fs IH]; intros vals kvs; [destruct vals; cbn; intros [= <-]; reflexivity|]. destruct vals as [|x vals]; [cbn; intros [= <-]; reflexivity|].
  cbn. unfold is_default. destruct (f_default f) as [|d|d].
  - destruct (find_field (f_name f) all); [|discriminate]. intros H. apply bind_ok in H as (y & _ & H). apply bind_ok in H as (r & H & E).
    injection E as <-. cbn. f_equal. exact (IH _ _ H).
  - destruct (py_eq ct x d); [exact (IH _ _)|]. destruct (find_field (f_name f) all); [|discriminate]. intros H. apply bind_ok in H as (y & _ & H). apply bind_ok in H as (r & H & E).
    injection E as <-. cbn. f_equal. exact (IH _ _ H).
  - destruct (find_field (f_name f) all); [|discriminate]. intros H. apply bind_ok in H as (y & _ & H). apply bind_ok in H as (r & H & E).
    injection E as <-. cbn. f_equal. exact (IH _ _ H).
Qed.
Definition other_keys (kvs : list (pystr * value)) : list pystr := filter (fun k => negb (str_eqb k TYPE_KEY)) (map fst kvs).
Lemma other_keys_set v kvs : other_keys (dict_set str_eqb TYPE_KEY v kvs) = other_keys kvs.
Proof.
  unfold other_keys. induction kvs as [|[k x] kvs IH]; [reflexivity|]. cbn -[TYPE_KEY str_eqb]. destruct (str_eqb TYPE_KEY k) eqn:E; [reflexivity|].
  cbn -[TYPE_KEY str_eqb]. rewrite IH. reflexivity.
Qed.
Lemma object_keys (c : pystr) (l : list value) (t : ty) kvs :
  to_dict ct (VObj c l) t = Ok (VDict kvs) ->
  other_keys kvs = filter (fun k => negb (str_eqb k TYPE_KEY)) (changed_fields ct (fields_of ct c) l).
Proof.
  rewrite to_dict_eq. intros H. apply bind_ok in H as (cv & _ & H). apply bind_ok in H as ((b & tag) & _ & H). apply bind_ok in H as (r & D & H).
  assert (X : exists kvs', r = VDict kvs' /\ other_keys kvs = other_keys kvs').
  { destruct tag; cbn in H; [|injection H as ->; eauto]. destruct r; try discriminate. injection H as <-. eexists. split; [reflexivity|]. apply other_keys_set. }
  destruct X as (kvs' & -> & ->). destruct b; cbn in D; try discriminate.
  apply bind_ok in D as (ks & D & E). injection E as <-. unfold other_keys. rewrite (dump_fields_keys _ _ _ _ _ D). reflexivity.
Qed.
End Table.
