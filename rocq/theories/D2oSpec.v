(* What dict2object is for: values of a type, data that can be written as JSON, values that are
   the same but for defaults, and the annotations for which the conversion can work. *)
From Coq Require Import Floats.SpecFloat.
From Verif Require Import PyBase LineModel D2oModel.
Local Open Scope Z_scope.

Section Table.
Context (ct : table).

(* issubclass(d, c) *)
Inductive descends : pystr -> pystr -> Prop :=
| descends_refl c : descends c c
| descends_step c d e : In d (c_subclasses (class_of_id ct c)) -> descends d e -> descends c e.

Definition attrs_class (c : pystr) (fs : list field) : Prop := c_fields (class_of_id ct c) = Some fs.

(* [typed v t]: v is a value that the annotation t allows.  An object is one that __init__ makes
   of its own fields; a field may also hold anything equal to its default. *)
Inductive typed : value -> ty -> Prop :=
| typed_bool b : typed (VBool b) TBool
| typed_int i : typed (VInt i) TInt
| typed_float f : typed (VFloat f) TFloat
| typed_str s : typed (VStr s) TStr
| typed_none : typed VNone TNone
| typed_list l t : Forall (fun v => typed v t) l -> typed (VList l) (TList t)
| typed_var_tuple l t : Forall (fun v => typed v t) l -> typed (VTuple l) (TVarTuple t)
| typed_tuple l ts : Forall2 typed l ts -> typed (VTuple l) (TTuple ts)
| typed_enum e ms m : lookup e (t_enums ct) = Some ms -> In m ms -> typed (VEnum e m) (TEnum e)
| typed_type cs c d : In c cs -> descends c d -> typed (VType d) (TTypeOf cs)
| typed_obj c d fs vals :
    descends c d -> attrs_class d fs -> Forall2 typed_field vals fs ->
    c_check (class_of_id ct d) vals = Ok vals ->
    typed (VObj d vals) (TClass c)
| typed_union v t ts : In t ts -> typed v t -> typed v (TUnion ts)
with typed_field : value -> field -> Prop :=
| field_typed v f : typed v (f_type f) -> typed_field v f
| field_default v f d : f_default f = Default d -> py_eq ct v d = true -> typed_field v f.

(* Data made of what JSON has *)
Inductive plain : value -> Prop :=
| plain_bool b : plain (VBool b)
| plain_int i : plain (VInt i)
| plain_float f : plain (VFloat f)
| plain_str s : plain (VStr s)
| plain_none : plain VNone
| plain_list l : Forall plain l -> plain (VList l)
| plain_dict l : NoDup (map fst l) -> Forall (fun kv => plain (snd kv)) l -> plain (VDict l).

(* The same value, but a field that equals its default may hold the default itself. *)
Inductive alike : value -> value -> Prop :=
| alike_same v : alike v v
| alike_list l m : Forall2 alike l m -> alike (VList l) (VList m)
| alike_tuple l m : Forall2 alike l m -> alike (VTuple l) (VTuple m)
| alike_obj c fs l m : attrs_class c fs -> alike_fields fs l m -> alike (VObj c l) (VObj c m)
with alike_fields : list field -> list value -> list value -> Prop :=
| alike_nil : alike_fields [] [] []
| alike_cons f fs x y l m : alike x y -> alike_fields fs l m -> alike_fields (f :: fs) (x :: l) (y :: m)
| alike_default f fs x d l m :
    f_default f = Default d -> py_eq ct x d = true -> alike_fields fs l m ->
    alike_fields (f :: fs) (x :: l) (d :: m).

(* The kinds of JSON values *)
Inductive kind := JBool | JInt | JFloat | JStr | JNull | JList | JDict.
Definition kind_of (t : ty) : option kind :=
  match t with
  | TBool => Some JBool | TInt => Some JInt | TFloat => Some JFloat | TStr => Some JStr | TNone => Some JNull
  | TList _ | TVarTuple _ | TTuple _ => Some JList
  | TEnum _ | TTypeOf _ => Some JStr
  | TClass _ => Some JDict
  | TUnion _ | TOther => None
  end.
Definition is_class (t : ty) : bool := match t with TClass _ => true | _ => false end.

(* The classes among [cs] and their subclasses *)
Definition among (cs : list pystr) (d : pystr) : Prop := exists c, In c cs /\ descends c d.
Definition names_differ (cs : list pystr) : Prop :=
  forall c d, among cs c -> among cs d -> c_name (class_of_id ct c) = c_name (class_of_id ct d) -> c = d.
Definition all_attrs (cs : list pystr) : Prop := forall c, among cs c -> exists fs, attrs_class c fs.
Definition classes_of (ts : list ty) : list pystr :=
  flat_map (fun t => match t with TClass c => [c] | _ => [] end) ts.

(* Annotations that work: unions are flat, their members that are not classes have different JSON
   kinds, and their classes (with subclasses) have different names.  A class with a metaclass of
   its own cannot be a value of Type[...] inside a union. *)
Inductive ty_ok : ty -> Prop :=
| ok_bool : ty_ok TBool
| ok_int : ty_ok TInt
| ok_float : ty_ok TFloat
| ok_str : ty_ok TStr
| ok_none : ty_ok TNone
| ok_list t : ty_ok t -> ty_ok (TList t)
| ok_var_tuple t : ty_ok t -> ty_ok (TVarTuple t)
| ok_tuple ts : Forall ty_ok ts -> ty_ok (TTuple ts)
| ok_enum e : ty_ok (TEnum e)
| ok_type cs : names_differ cs -> ty_ok (TTypeOf cs)
| ok_class c : all_attrs [c] -> names_differ [c] -> ty_ok (TClass c)
| ok_union ts :
    Forall ty_ok ts ->
    Forall (fun t => kind_of t <> None) ts ->
    NoDup (map kind_of (filter (fun t => negb (is_class t)) ts)) ->
    all_attrs (classes_of ts) -> names_differ (classes_of ts) ->
    (forall cs d, In (TTypeOf cs) ts -> among cs d -> c_meta (class_of_id ct d) = false) ->
    ty_ok (TUnion ts).

(* Inheritance has no cycles; the fields of every class have annotations that work, and names that
   differ even without the leading underscore, of which there is at most one; __init__ does not
   tell apart values that are alike. *)
Definition two_underscores (s : pystr) : Prop := exists t, s = 95%N :: 95%N :: t.
Definition table_ok : Prop :=
  (exists rank : pystr -> nat, forall c,
     (rank c <= length (t_classes ct))%nat /\
     forall d, In d (c_subclasses (class_of_id ct c)) -> (rank d < rank c)%nat) /\
  (forall c fs, attrs_class c fs ->
     Forall (fun f => ty_ok (f_type f)) fs /\
     NoDup (map (fun f => strip_one_underscore (f_name f)) fs) /\
     Forall (fun f => ~ two_underscores (f_name f)) fs) /\
  (forall c fs l m, attrs_class c fs -> alike_fields fs l m ->
     c_check (class_of_id ct c) l = Ok l -> c_check (class_of_id ct c) m = Ok m).

(* No float in the value is NaN *)
Inductive without_nan : value -> Prop :=
| wn_bool b : without_nan (VBool b)
| wn_int i : without_nan (VInt i)
| wn_float f : f <> S754_nan -> without_nan (VFloat f)
| wn_str s : without_nan (VStr s)
| wn_none : without_nan VNone
| wn_list l : Forall without_nan l -> without_nan (VList l)
| wn_tuple l : Forall without_nan l -> without_nan (VTuple l)
| wn_enum e m : without_nan (VEnum e m)
| wn_type c : without_nan (VType c)
| wn_obj c l : Forall without_nan l -> without_nan (VObj c l).

(* Every field that equals its default holds the default itself *)
Inductive tidy : value -> Prop :=
| tidy_bool b : tidy (VBool b)
| tidy_int i : tidy (VInt i)
| tidy_float f : tidy (VFloat f)
| tidy_str s : tidy (VStr s)
| tidy_none : tidy VNone
| tidy_list l : Forall tidy l -> tidy (VList l)
| tidy_tuple l : Forall tidy l -> tidy (VTuple l)
| tidy_enum e m : tidy (VEnum e m)
| tidy_type c : tidy (VType c)
| tidy_obj c fs l :
    attrs_class c fs -> Forall tidy l ->
    Forall2 (fun f x => forall d, f_default f = Default d -> py_eq ct x d = true -> x = d) fs l ->
    tidy (VObj c l).

(* the names of the fields that do not equal their defaults *)
Fixpoint changed_fields (fs : list field) (vals : list value) : list pystr :=
  match fs, vals with
  | f :: fs, x :: vals =>
      match f_default f with
      | Default d => if py_eq ct x d then changed_fields fs vals else f_name f :: changed_fields fs vals
      | _ => f_name f :: changed_fields fs vals
      end
  | _, _ => []
  end.

End Table.
