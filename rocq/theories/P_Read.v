(* Property C75: what is read from data that the program did not write. *)
From Coq Require Import Lia Floats.SpecFloat Permutation.
From Coq Require Import ZifyBool ZifyNat ZifyN.
From Verif Require Import PyBase PyBaseFacts IdModel LineModel
  D2oModel D2oSpec D2oProofs D2oProofs2 D2oHun D2oHunProofs P_D2o D2oReadSpec D2oReadProofs D2oReadProofs2.
Local Open Scope Z_scope.

(** C75: for all classes and annotations that work together and all plain data, reading succeeds
    exactly with the value that the specification gives; in all other cases it is an error. *)
Theorem C75_reads : forall ct d t v, table_ok ct -> ty_ok ct t -> plain d ->
  to_object ct d t = Ok v <-> reads_as ct d t v.
Proof. intros ct d t v T O P. exact (reading_exact ct d T P t O v). Qed.
Print Assumptions C75_reads.

Definition c75_data : value :=
  VDict [(TYPE_KEY, VStr (u8 "Right")); (u8 "color", VStr (u8 "RED")); (u8 "name", VStr (u8 "r"))].
Definition c75_right : value := VObj (u8 "Right") [VStr (u8 "r"); VInt 0; VEnum (u8 "Color") (u8 "RED")].
Ltac plain_data :=
  cbn [snd app];
  match goal with
  | |- plain (VDict _) => apply plain_dict; [apply names_apart_nodup; reflexivity|plain_data]
  | |- plain (VList _) => apply plain_list; plain_data
  | |- Forall _ [] => apply Forall_nil
  | |- Forall _ _ => apply Forall_cons; plain_data
  | |- plain _ => constructor
  end.
Lemma c75_plain : plain c75_data.
Proof. unfold c75_data. plain_data. Qed.
(* keys in any order, a default for the size, the class by its name *)
Example C75_ex : table_ok c42_table /\ ty_ok c42_table c42_type /\ plain c75_data /\
  to_object c42_table c75_data c42_type = Ok c75_right /\ reads_as c42_table c75_data c42_type c75_right.
Proof.
  assert (E : to_object c42_table c75_data c42_type = Ok c75_right) by (vm_compute; reflexivity).
  split; [exact (proj1 c42_ok)|]. split; [exact (proj2 c42_ok)|]. split; [exact c75_plain|]. split; [exact E|].
  apply C75_reads; [exact (proj1 c42_ok)|exact (proj2 c42_ok)|exact c75_plain|exact E].
Qed.

(* An object that is read: its class is the annotated one or a subclass, every key is one of its
   fields or the class name, and every field without a default has a key. *)
Theorem C75_object : forall ct kvs c v, table_ok ct -> ty_ok ct (TClass c) -> plain (VDict kvs) ->
  to_object ct (VDict kvs) (TClass c) = Ok v ->
  exists e fs vals, v = VObj e vals /\ descends ct c e /\ attrs_class ct e fs /\
    (forall k, In k (map fst kvs) -> k = TYPE_KEY \/ In k (map f_name fs)) /\
    (forall f, In f fs -> f_default f = NoDefault -> In (f_name f) (map fst kvs)).
Proof.
  intros ct kvs c v T O P E. apply class_read in E; [|assumption..]. destruct E as (l & e & [= <-] & C & R).
  destruct (object_shape _ _ _ _ R) as (fs & vals & V & F & A & B). exists e, fs, vals.
  destruct (chosen_among _ _ _ _ C) as (x & [<-|[]] & D). auto 10.
Qed.
Print Assumptions C75_object.
(* So for the classes of hun_law: data with a key that no class knows, or without a required key,
   are refused. *)
Theorem C75_hun_law : forall kvs c v, In c (map fst hun_classes) -> plain (VDict kvs) ->
  to_object hun_table (VDict kvs) (TClass c) = Ok v ->
  exists e fs vals, v = VObj e vals /\ descends hun_table c e /\ attrs_class hun_table e fs /\
    (forall k, In k (map fst kvs) -> k = TYPE_KEY \/ In k (map f_name fs)) /\
    (forall f, In f fs -> f_default f = NoDefault -> In (f_name f) (map fst kvs)).
Proof. intros kvs c v I. exact (C75_object hun_table kvs c v hun_table_ok (proj2 C42_hun_law c I)). Qed.
Print Assumptions C75_hun_law.
(* What is read as a class is an object in the data *)
Theorem C75_class : forall ct d c v, table_ok ct -> ty_ok ct (TClass c) -> plain d ->
  to_object ct d (TClass c) = Ok v -> exists kvs, d = VDict kvs.
Proof. intros ct d c v T O P E. apply class_read in E; [|assumption..]. destruct E as (kvs & _ & -> & _). eauto. Qed.
Print Assumptions C75_class.
(* With several classes possible, an unknown class name is refused. *)
Theorem C75_unknown_name : forall ct kvs t c d n, table_ok ct -> ty_ok ct t -> plain (VDict kvs) ->
  among ct (classes_at t) c -> among ct (classes_at t) d -> c <> d ->
  In (TYPE_KEY, VStr n) kvs -> (forall e, among ct (classes_at t) e -> c_name (class_of_id ct e) <> n) ->
  exists e, to_object ct (VDict kvs) t = Err e.
Proof.
  intros ct kvs t c d n T O P A B N I U. destruct (to_object ct (VDict kvs) t) as [v|e] eqn:E; [exfalso|eauto].
  assert (X : exists e, chosen ct (classes_at t) kvs e).
  { destruct t; try (destruct A as (? & F & _); destruct F).
    - apply class_read in E; [|assumption..]. destruct E as (l & e & [= <-] & C & _). eauto.
    - apply class_read in E; [|assumption..]. destruct E as (l & e & [= <-] & C & _). eauto.
    - apply union_read in E; [|assumption..]. destruct E as [(l & e & [= <-] & C & _)|(t & _ & Q & J & _)]; [eauto|].
      destruct t; discriminate. }
  destruct X as (e & C). inversion C; subst.
  - apply N. rewrite (H0 c A), (H0 d B). reflexivity.
  - apply (U e H). inversion P as [| | | | | |? ND]; subst.
    apply (lookup_in TYPE_KEY) in I; [|exact ND]. apply (lookup_in TYPE_KEY) in H2; [|exact ND]. congruence.
  - apply H2. apply (in_map fst) in I. exact I.
Qed.
Print Assumptions C75_unknown_name.
Definition c75_act (extra : list (pystr * value)) (identifier children : value) : value :=
  VDict (extra ++
    [(u8 "identifier", identifier);
     (u8 "publication_date", VDict [(u8 "year", VInt 2020); (u8 "month", VInt 1); (u8 "day", VInt 2)]);
     (u8 "subject", VStr (u8 "s")); (u8 "preamble", VStr []); (u8 "children", children)]).
Definition c75_read (identifier children : value) : value :=
  VObj (u8 "Act") [identifier; VObj (u8 "Date") [VInt 2020; VInt 1; VInt 2]; VStr (u8 "s"); VStr []; children].
Example C75_refused_ex :
  to_object hun_table (c75_act [] (VStr (u8 "I")) (VList [])) (TClass (u8 "Act")) = Ok (c75_read (VStr (u8 "I")) (VTuple [])) /\
  to_object hun_table (c75_act [(u8 "extra", VNone)] (VStr (u8 "I")) (VList [])) (TClass (u8 "Act")) = Err KeyError /\
  to_object hun_table (VDict [(u8 "identifier", VStr (u8 "I"))]) (TClass (u8 "Act")) = Err TypeError /\
  to_object hun_table (c75_act [] (VStr (u8 "I")) (VList [VDict [(TYPE_KEY, VStr (u8 "Volume")); (u8 "identifier", VStr (u8 "1")); (u8 "title", VStr [])]]))
    (TClass (u8 "Act")) = Err KeyError /\
  (* an abstract class: the first of the union is chosen when there is no name *)
  to_object hun_table (c75_act [] (VStr (u8 "I")) (VList [VDict [(u8 "identifier", VStr (u8 "1")); (u8 "title", VStr [])]]))
    (TClass (u8 "Act")) = Err TypeError /\
  to_object hun_table (c75_act [] (VStr (u8 "I")) (VList [VDict [(TYPE_KEY, VStr (u8 "Book")); (u8 "identifier", VStr (u8 "1")); (u8 "title", VStr [])]]))
    (TClass (u8 "Act")) = Ok (c75_read (VStr (u8 "I")) (VTuple [VObj (u8 "Book") [VStr (u8 "1"); VStr []]])).
Proof. repeat split; vm_compute; reflexivity. Qed.

(* The order of the keys of an object does not matter. *)
Theorem C75_order : forall ct kvs kvs' t v, table_ok ct -> ty_ok ct t ->
  match t with TClass _ | TUnion _ => True | _ => False end ->
  plain (VDict kvs) -> Permutation kvs kvs' ->
  to_object ct (VDict kvs) t = Ok v -> to_object ct (VDict kvs') t = Ok v.
Proof. intros ct. exact (order_irrelevant ct). Qed.
Print Assumptions C75_order.
(* A class name is not looked at if the class has no subclasses, not even if it is a wrong one. *)
Theorem C75_name_ignored : forall ct kvs c x v, table_ok ct -> ty_ok ct (TClass c) -> c_subclasses (class_of_id ct c) = [] ->
  plain (VDict ((TYPE_KEY, x) :: kvs)) ->
  to_object ct (VDict ((TYPE_KEY, x) :: kvs)) (TClass c) = Ok v <-> to_object ct (VDict kvs) (TClass c) = Ok v.
Proof. intros ct. exact (tag_ignored ct). Qed.
Print Assumptions C75_name_ignored.
Example C75_name_ignored_ex : c_subclasses (class_of_id hun_table (u8 "Act")) = [] /\
  to_object hun_table (c75_act [(TYPE_KEY, VStr (u8 "Article"))] (VStr (u8 "I")) (VList [])) (TClass (u8 "Act")) =
    Ok (c75_read (VStr (u8 "I")) (VTuple [])).
Proof. split; vm_compute; reflexivity. Qed.

(* Two classes of the same name in one annotation: nothing is written or read. *)
Theorem C75_collision : forall ct t c d v, table_ok ct -> among ct (classes_at t) c -> among ct (classes_at t) d ->
  c <> d -> c_name (class_of_id ct c) = c_name (class_of_id ct d) ->
  (exists e, to_dict ct v t = Err e) /\ (exists e, to_object ct v t = Err e).
Proof. intros ct t c d v. exact (collision_refused ct t c d v). Qed.
Print Assumptions C75_collision.
Definition c75_twins : table := mk_table
  [ (u8 "a.Point", mk_class (u8 "Point") [] (Some [required (u8 "x") TInt]) no_check false);
    (u8 "b.Point", mk_class (u8 "Point") [] (Some [required (u8 "y") TInt]) no_check false) ] [].
Example C75_collision_ex :
  to_object c75_twins (VDict [(u8 "x", VInt 1)]) (TUnion [TClass (u8 "a.Point"); TClass (u8 "b.Point")]) = Err TypeError /\
  to_dict c75_twins (VObj (u8 "a.Point") [VInt 1]) (TUnion [TClass (u8 "a.Point"); TClass (u8 "b.Point")]) = Err TypeError /\
  to_object c75_twins (VDict [(u8 "x", VInt 1)]) (TUnion [TClass (u8 "a.Point"); TNone]) = Ok (VObj (u8 "a.Point") [VInt 1]).
Proof. repeat split; vm_compute; reflexivity. Qed.

(* What is read need not be of the annotated type: numbers and strings are not checked. *)
Theorem C75_types_refuted : ~ forall d v, plain d ->
  to_object hun_table d (TClass (u8 "Act")) = Ok v -> typed hun_table v (TClass (u8 "Act")).
Proof.
  intros H. specialize (H (c75_act [] (VInt 5) (VList [])) (c75_read (VInt 5) (VTuple []))).
  assert (X : typed hun_table (c75_read (VInt 5) (VTuple [])) (TClass (u8 "Act"))).
  { apply H; [unfold c75_act; plain_data|vm_compute; reflexivity]. }
  inversion X as [| | | | | | | | | |? ? fs ? ? A F|]; subst. unfold attrs_class in A. vm_compute in A. injection A as <-.
  inversion F as [|? ? ? ? F1]; subst. inversion F1 as [? ? T|? ? ? D]; subst; [inversion T|discriminate D].
Qed.
Print Assumptions C75_types_refuted.
(* Data of the wrong length are cut to the length of the tuple: a range of three is read as two. *)
Theorem C75_length_refuted : ~ forall l ts m, to_object hun_table (VList l) (TTuple ts) = Ok (VTuple m) -> length m = length l.
Proof. intros H. specialize (H [VStr (u8 "1"); VStr (u8 "2"); VStr (u8 "3")] [TStr; TStr] _ eq_refl). discriminate H. Qed.
Print Assumptions C75_length_refuted.
(* A string or an object in place of a list is read by its characters or keys. *)
Theorem C75_list_refuted : ~ forall d v, plain d -> to_object hun_table d (TVarTuple TStr) = Ok v -> exists l, d = VList l.
Proof. intros H. destruct (H (VStr (u8 "ab")) (VTuple [VStr (u8 "a"); VStr (u8 "b")]) (plain_str _) eq_refl) as (l & E). discriminate E. Qed.
Print Assumptions C75_list_refuted.
Example C75_unchecked_ex :
  to_object hun_table (c75_act [] (VInt 5) (VList [])) (TClass (u8 "Act")) = Ok (c75_read (VInt 5) (VTuple [])) /\
  to_object hun_table (c75_act [] (VStr (u8 "I")) (VDict [])) (TClass (u8 "Act")) = Ok (c75_read (VStr (u8 "I")) (VTuple [])) /\
  to_object hun_table (VDict [(u8 "article", VList [VStr (u8 "1"); VStr (u8 "2"); VStr (u8 "3")])]) (TClass (u8 "Reference")) =
    Ok (VObj (u8 "Reference") [VNone; VTuple [VStr (u8 "1"); VStr (u8 "2")]; VNone; VNone; VNone]).
Proof. repeat split; vm_compute; reflexivity. Qed.
