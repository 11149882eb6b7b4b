(* Proofs about dict2object: what reading plain data gives. *)
From Coq Require Import Lia.
From Coq Require Import ZifyBool ZifyNat ZifyN.
From Verif Require Import PyBase PyBaseFacts LineModel D2oModel D2oSpec D2oProofs D2oProofs2 D2oReadSpec.

Section Table.
Context (ct : table).

Notation name_of c := (c_name (class_of_id ct c)).

(** * The first class of a union *)

Lemma distinct_first (l : list ty) : hd_error (filter is_class (distinct_types l)) = hd_error (filter is_class l).
Proof.
  induction l as [|u l IH]; cbn; [reflexivity|]. destruct (is_class u) eqn:E; [reflexivity|].
  rewrite <- IH. f_equal. rewrite filter_filter.
  assert (F : forall m, Forall (fun t => is_class t = true) m -> filter (fun t => negb (ty_eqb t u)) m = m).
  { induction m as [|t m IHm]; intros F; cbn; [reflexivity|]. inversion F; subst.
    destruct (ty_eqb t u) eqn:Q; [apply ty_eqb_kind in Q; destruct Q; congruence|]. cbn. rewrite IHm; auto. }
  apply F. apply Forall_forall. intros t I. apply filter_In in I. apply I.
Qed.
Lemma filter_classes (cs : list pystr) : filter is_class (map TClass cs) = map TClass cs.
Proof. induction cs as [|c cs IH]; cbn; [reflexivity|]. rewrite IH. reflexivity. Qed.
Lemma candidates_first (ts : list ty) :
  hd_error (filter is_class (flat_map (candidates_of ct) ts)) = option_map TClass (hd_error (classes_of ts)).
Proof.
  induction ts as [|t ts IH]; [reflexivity|]. cbn [flat_map]. rewrite filter_app.
  destruct t; try exact IH. unfold candidates_of. rewrite filter_classes. unfold subclasses_recursive.
  destruct (length (t_classes ct)); reflexivity.
Qed.
Lemma class_list (l : list ty) (bs : list basic) :
  Forall2 (fun t b => create_basic ct t = Ok b) (filter is_class l) bs ->
  exists cs, filter is_class l = map TClass cs /\ bs = map BAttrs cs.
Proof.
  assert (F : Forall (fun t => is_class t = true) (filter is_class l)).
  { apply Forall_forall. intros t I. apply filter_In in I. apply I. }
  intros H. induction H as [|t b m bs E H IH]; [exists []; auto|]. inversion F; subst.
  destruct (IH H3) as (cs & E1 & E2). destruct t; try discriminate. exists (c :: cs). cbn. rewrite E1, E2.
  split; [reflexivity|]. f_equal. cbn in E. destruct (c_fields _); [|discriminate]. congruence.
Qed.

(** * What a union chooses *)

Definition union_fit (ts : list ty) : Prop :=
  Forall (fun t => kind_of t <> None) ts /\
  NoDup (map kind_of (filter (fun t => negb (is_class t)) ts)) /\
  all_attrs ct (classes_of ts) /\ names_differ ct (classes_of ts).

Lemma in_not_class (ts : list ty) (t : ty) :
  NoDup (map kind_of (filter not_class ts)) -> is_class t = false ->
  In t (distinct_types (flat_map (candidates_of ct) ts)) <-> In t ts.
Proof.
  intros N E. split; intros I.
  - apply distinct_sub in I. apply in_flat_map in I. destruct I as (u & I & J).
    destruct u; cbn in J; try (destruct J as [<-|[]]; exact I).
    apply in_map_iff in J. destruct J as (x & <- & _). discriminate.
  - apply distinct_other; [rewrite candidates_other; exact N|exact E|].
    apply in_flat_map. exists t. split; [exact I|]. destruct t; try discriminate; left; reflexivity.
Qed.

Lemma type_kind (d : value) (k : kind) : type_of ct d = out_type k <-> json_kind d = Some k.
Proof. destruct d, k; cbn; split; try discriminate; try reflexivity; destruct (c_meta _); discriminate. Qed.

Lemma lookup_type_iff {A} (k : pytype) (l : list (pytype * A)) v :
  NoDup (map fst l) -> lookup_type k l = Some v <-> In (k, v) l.
Proof. intros N. split; [apply lookup_type_found|apply lookup_type_in; exact N]. Qed.

Lemma lookup_iff {A} (k : pystr) (l : list (pystr * A)) v :
  NoDup (map fst l) -> lookup k l = Some v <-> In (k, v) l.
Proof. intros N. split; [apply lookup_found|apply lookup_in; exact N]. Qed.

Lemma Forall2_in_right {A B} (R : A -> B -> Prop) (l : list A) (m : list B) y :
  Forall2 R l m -> In y m -> exists x, In x l /\ R x y.
Proof.
  intros F I. induction F; [contradiction|]. destruct I as [->|I]; [exists x; cbn; auto|].
  destruct (IHF I) as (x' & ? & ?). exists x'. cbn. auto.
Qed.

Lemma union_chooses (ts : list ty) : table_ok ct -> union_fit ts ->
  exists u, new_union ct ts = Ok u /\
  forall d b, plain d ->
    choose_to_object ct (Union u) d = Ok b <->
    (exists kvs c, d = VDict kvs /\ chosen ct (classes_of ts) kvs c /\ b = BAttrs c) \/
    (exists t, In t ts /\ is_class t = false /\ json_kind d = kind_of t /\ create_basic ct t = Ok b).
Proof.
  intros T (K & N & A & D). destruct (new_union_form ct ts T K N A D) as (bs & F & N1 & N2 & N3 & EU).
  eexists. split; [exact EU|]. clear EU. intros d b P.
  assert (F1 : Forall2 (fun t b => create_basic ct t = Ok b)
    (filter not_class (distinct_types (flat_map (candidates_of ct) ts))) (filter (fun b => negb (is_dict b)) bs)).
  { apply filter_Forall2; [|exact F]. intros t x C. unfold not_class. rewrite (is_dict_class _ _ _ C). reflexivity. }
  assert (F2 : Forall2 (fun t b => create_basic ct t = Ok b)
    (filter is_class (distinct_types (flat_map (candidates_of ct) ts))) (filter is_dict bs)).
  { apply filter_Forall2; [|exact F]. intros t x C. apply (is_dict_class ct). exact C. }
  destruct (class_list _ _ F2) as (cs & E1 & E2). rewrite E2 in N2, N3 |- *. clear F2 E2.
  rewrite map_map in N2, N3. cbn [input_type type_name] in N2, N3.
  assert (IC : forall c, In c cs <-> among ct (classes_of ts) c).
  { intros c. rewrite among_candidates by exact T. split; intros I.
    - apply (distinct_sub (flat_map (candidates_of ct) ts)). apply (in_map TClass) in I. rewrite <- E1 in I. apply filter_In in I. apply I.
    - apply distinct_class in I. assert (J : In (TClass c) (map TClass cs)) by (rewrite <- E1; apply filter_In; auto).
      apply in_map_iff in J. destruct J as (x & [= ->] & J). exact J. }
  assert (HC : hd_error cs = hd_error (classes_of ts)).
  { pose proof (candidates_first ts) as X. rewrite <- distinct_first, E1 in X.
    destruct cs, (classes_of ts); cbn in X |- *; congruence. }
  assert (NC : NoDup cs) by (apply NoDup_map_inv in N2; exact N2).
  assert (X : choose_to_object ct
     (Union (mk_union (map (fun b0 => (input_type b0, b0)) (filter (fun b0 => negb (is_dict b0)) bs))
                      (map (fun b0 => (converted_type b0, b0)) (filter (fun b0 => negb (is_dict b0)) bs))
                      (mk_dis (map (fun b0 => (input_type b0, b0)) (map BAttrs cs))
                              (map (fun b0 => (type_name ct (input_type b0), b0)) (map BAttrs cs))
                              (hd_error (map BAttrs cs))))) d =
     match d with
     | VDict kvs =>
        match (length cs =? 1)%nat, lookup TYPE_KEY kvs with
        | true, _ | false, None => match hd_error cs with Some c => Ok (BAttrs c) | None => Err AssertionError end
        | false, Some (VStr n) =>
            match lookup n (map (fun c => (name_of c, c)) cs) with Some c => Ok (BAttrs c) | None => Err KeyError end
        | false, Some _ => Err KeyError
        end
     | _ => match lookup_type (type_of ct d) (map (fun b0 => (converted_type b0, b0)) (filter (fun b0 => negb (is_dict b0)) bs)) with
            | Some b => Ok b | None => Err KeyError end
     end).
  { destruct d; try reflexivity. cbn [choose_to_object u_dis dd_obj dd_default]. rewrite !map_length.
    replace (match hd_error (map BAttrs cs) with Some b0 => Ok b0 | None => Err AssertionError end)
      with (match hd_error cs with Some c => Ok (BAttrs c) | None => Err AssertionError end) by (destruct cs; reflexivity).
    destruct (length cs =? 1)%nat; [reflexivity|]. destruct (lookup TYPE_KEY l) as [[]|]; try reflexivity.
    rewrite map_map. cbn [input_type type_name].
    replace (lookup s (map (fun x => (name_of x, BAttrs x)) cs)) with (option_map BAttrs (lookup s (map (fun c => (name_of c, c)) cs))).
    - destruct (lookup s _); reflexivity.
    - clear. induction cs as [|c cs IH]; cbn; [reflexivity|]. destruct (str_eqb s (name_of c)); [reflexivity|exact IH]. }
  rewrite X. clear X.
  assert (L1 : (length cs =? 1)%nat = true <-> exists c, among ct (classes_of ts) c /\ forall e, among ct (classes_of ts) e -> e = c).
  { split.
    - destruct cs as [|c [|x r]]; try discriminate. intros _. exists c. split; [apply IC; left; reflexivity|].
      intros e I. apply IC in I. destruct I as [<-|[]]. reflexivity.
    - intros (c & I & O). apply IC in I. apply Nat.eqb_eq. destruct cs as [|x [|y r]]; [destruct I|reflexivity|].
      inversion NC; subst. exfalso. apply H1. left. transitivity c; [apply O|symmetry; apply O]; apply IC; cbn; auto. }
  assert (Y : (match d with VDict _ => False | _ => True end) ->
    lookup_type (type_of ct d) (map (fun b0 => (converted_type b0, b0)) (filter (fun b0 => negb (is_dict b0)) bs)) = Some b <->
    (exists t, In t ts /\ is_class t = false /\ json_kind d = kind_of t /\ create_basic ct t = Ok b)).
  { intros ND. rewrite lookup_type_iff by (rewrite map_map; exact N1). split.
    - intros I. apply in_map_iff in I. destruct I as (x & [= E ->] & I).
      destruct (Forall2_in_right _ _ _ _ F1 I) as (t & J & C). apply filter_In in J. destruct J as (J & Q).
      unfold not_class in Q. apply negb_true_iff in Q. exists t. split; [exact (proj1 (in_not_class ts t N Q) J)|].
      split; [exact Q|]. split; [|exact C]. destruct (converted_kind _ _ _ C) as (k & K1 & K2). rewrite K1.
      apply type_kind. congruence.
    - intros (t & I & Q & J & C). apply in_map_iff. exists b. destruct (converted_kind _ _ _ C) as (k & K1 & K2).
      split.
      + f_equal. rewrite K2. symmetry. apply type_kind. congruence.
      + assert (M : In t (filter not_class (distinct_types (flat_map (candidates_of ct) ts)))).
        { apply filter_In. split; [exact (proj2 (in_not_class ts t N Q) I)|]. unfold not_class. rewrite Q. reflexivity. }
        destruct (Forall2_in_left _ _ _ _ F1 M) as (b' & M1 & M2). congruence. }
  assert (Z : (match d with VDict _ => False | _ => True end) ->
     (match lookup_type (type_of ct d) (map (fun b0 => (converted_type b0, b0)) (filter (fun b0 => negb (is_dict b0)) bs)) with
            | Some b => Ok b | None => Err KeyError end) = Ok b <->
    (exists kvs c, d = VDict kvs /\ chosen ct (classes_of ts) kvs c /\ b = BAttrs c) \/
    (exists t, In t ts /\ is_class t = false /\ json_kind d = kind_of t /\ create_basic ct t = Ok b)).
  { intros ND. rewrite <- (Y ND). destruct (lookup_type _ _) as [b'|]; split.
    - intros [= ->]. auto.
    - intros [(kvs & c & -> & _)|E]; [destruct ND|congruence].
    - discriminate.
    - intros [(kvs & c & -> & _)|E]; [destruct ND|discriminate]. }
  destruct d as [ | | | | | | |kvs| | | ]; try (apply Z; exact I). clear Y Z. inversion P as [| | | | | |? NK PK]; subst.
  assert (NO : ~ (exists t, In t ts /\ is_class t = false /\ json_kind (VDict kvs) = kind_of t /\ create_basic ct t = Ok b)).
  { intros (t & _ & Q & J & _). destruct t; discriminate. }
  destruct (length cs =? 1)%nat eqn:EL.
  - destruct (proj1 L1 eq_refl) as (c & I1 & I2). pose proof (proj2 (IC c) I1) as I3.
    destruct cs as [|c' [|]]; try discriminate. destruct I3 as [->|[]]. cbn [hd_error]. split.
    + intros [= <-]. left. exists kvs, c. split; [reflexivity|]. split; [|reflexivity]. apply chosen_only; assumption.
    + intros [(kvs' & c' & [= <-] & CH & ->)|E]; [|contradiction].
      assert (c' = c) as -> by (inversion CH; subst; auto; apply I2; eexists; split; [rewrite H; left; reflexivity|constructor]).
      reflexivity.
  - assert (MORE : forall c, among ct (classes_of ts) c -> exists e, among ct (classes_of ts) e /\ e <> c).
    { intros c I. apply IC in I. destruct cs as [|x [|y r]]; [destruct I|discriminate|].
      inversion NC; subst. destruct (list_eq_dec N.eq_dec x c) as [->|Q].
      - exists y. split; [apply IC; cbn; auto|]. intros ->. apply H1. left. reflexivity.
      - exists x. split; [apply IC; cbn; auto|exact Q]. }
    destruct (lookup TYPE_KEY kvs) as [n|] eqn:LK.
    + apply (lookup_iff TYPE_KEY) in LK; [|exact NK].
      assert (ONE : forall n', In (TYPE_KEY, n') kvs -> n' = n).
      { intros n' I. apply (lookup_iff TYPE_KEY) in LK; [|exact NK]. apply (lookup_iff TYPE_KEY) in I; [|exact NK]. congruence. }
      assert (TK : In TYPE_KEY (map fst kvs)) by (apply (in_map fst) in LK; exact LK).
      split.
      * destruct n; try discriminate. destruct (lookup s _) as [c|] eqn:LC; [|discriminate]. intros [= <-].
        apply lookup_iff in LC; [|rewrite map_map; exact N3]. apply in_map_iff in LC. destruct LC as (x & [= <- ->] & I).
        apply IC in I. destruct (MORE _ I) as (e & I' & Q). left. exists kvs, c. split; [reflexivity|].
        split; [|reflexivity]. apply (chosen_named _ _ _ c e); assumption.
      * intros [(kvs' & c' & [= <-] & CH & ->)|E]; [|contradiction]. inversion CH; subst.
        -- destruct (MORE _ H) as (e & I & Q). exfalso. apply Q. apply H0. exact I.
        -- rewrite <- (ONE _ H2). 
           assert (LC : lookup (name_of c') (map (fun c => (name_of c, c)) cs) = Some c'); [|rewrite LC; reflexivity].
           apply lookup_in; [rewrite map_map; exact N3|]. apply in_map_iff. exists c'. split; [reflexivity|]. apply IC. exact H.
        -- contradiction.
    + apply lookup_none in LK. split.
      * destruct cs as [|c r]; [discriminate|]. cbn [hd_error] in *. intros [= <-].
        destruct (classes_of ts) as [|c' cs'] eqn:EC; [discriminate|]. injection HC as <-.
        destruct (MORE c) as (e & I & Q); [apply IC; left; reflexivity|].
        left. exists kvs, c. split; [reflexivity|]. split; [|reflexivity].
        apply (chosen_first _ _ _ c cs' e); auto.
      * intros [(kvs' & c' & [= <-] & CH & ->)|E]; [|contradiction]. inversion CH; subst.
        -- destruct (MORE _ H) as (e & I & Q). exfalso. apply Q. apply H0. exact I.
        -- apply (in_map fst) in H2. contradiction.
        -- rewrite HC, H. reflexivity.
Qed.

End Table.
