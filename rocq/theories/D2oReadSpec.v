(* What reading plain data with dict2object gives: for each annotation, which data are accepted and
   what they become. *)
From Verif Require Import PyBase LineModel D2oModel D2oSpec.

Section Table.
Context (ct : table).

Notation name_of c := (c_name (class_of_id ct c)).

(* the kind of a piece of JSON *)
Definition json_kind (d : value) : option kind :=
  match d with
  | VBool _ => Some JBool | VInt _ => Some JInt | VFloat _ => Some JFloat | VStr _ => Some JStr
  | VNone => Some JNull | VList _ => Some JList | VDict _ => Some JDict
  | _ => None
  end.

(* what a for loop over the data sees: elements, characters or keys *)
Definition iterated (d : value) (l : list value) : Prop :=
  match d with
  | VList m => l = m
  | VStr s => l = map (fun c => VStr [c]) s
  | VDict kvs => l = map (fun kv => VStr (fst kv)) kvs
  | _ => False
  end.

Definition scalar (t : ty) : bool :=
  match t with TBool | TInt | TFloat | TStr | TNone => true | _ => false end.

(* [chosen cs kvs c]: the object is read as one of class c when the annotation has the classes cs.
   If only one class is possible, it is that one; if there are more, the one that is named, and
   without a name the first. *)
Inductive chosen (cs : list pystr) (kvs : list (pystr * value)) : pystr -> Prop :=
| chosen_only c :
    among ct cs c -> (forall d, among ct cs d -> d = c) -> chosen cs kvs c
| chosen_named c d :
    among ct cs c -> among ct cs d -> d <> c -> In (TYPE_KEY, VStr (name_of c)) kvs -> chosen cs kvs c
| chosen_first c cs' d :
    cs = c :: cs' -> among ct cs d -> d <> c -> ~ In TYPE_KEY (map fst kvs) -> chosen cs kvs c.

(* the classes that an annotation names *)
Definition classes_at (t : ty) : list pystr :=
  match t with TClass c => [c] | TUnion ts => classes_of ts | _ => [] end.

Definition gives_default (f : field) (v : value) : Prop := f_default f = Default v \/ f_default f = Factory v.

(* [reads_as d t v]: the data d are read at the annotation t as the value v.  What is annotated as
   a bool, number, string or None is taken over as it is, whatever it is. *)
Inductive reads_as : value -> ty -> value -> Prop :=
| reads_scalar d t : scalar t = true -> reads_as d t d
| reads_list d l t m : iterated d l -> Forall2 (fun x v => reads_as x t v) l m -> reads_as d (TList t) (VList m)
| reads_var_tuple d l t m : iterated d l -> Forall2 (fun x v => reads_as x t v) l m -> reads_as d (TVarTuple t) (VTuple m)
| reads_tuple d l ts m :
    iterated d l -> Forall2 (fun xt v => reads_as (fst xt) (snd xt) v) (combine l ts) m -> reads_as d (TTuple ts) (VTuple m)
| reads_enum e ms m : lookup e (t_enums ct) = Some ms -> In m ms -> reads_as (VStr m) (TEnum e) (VEnum e m)
| reads_type cs c : among ct cs c -> reads_as (VStr (name_of c)) (TTypeOf cs) (VType c)
| reads_class c kvs d v : chosen [c] kvs d -> object_read kvs d v -> reads_as (VDict kvs) (TClass c) v
| reads_union_class ts kvs d v :
    chosen (classes_of ts) kvs d -> object_read kvs d v -> reads_as (VDict kvs) (TUnion ts) v
| reads_union_other ts t d v :
    In t ts -> is_class t = false -> json_kind d = kind_of t -> reads_as d t v -> reads_as d (TUnion ts) v
(* an object of class c from a dict: every key is a field (or the class name), every field without
   a default has a key, and __init__ accepts the values *)
with object_read : list (pystr * value) -> pystr -> value -> Prop :=
| object_fields kvs c fs vals vals' :
    attrs_class ct c fs ->
    (forall k, In k (map fst kvs) -> k = TYPE_KEY \/ In k (map f_name fs)) ->
    Forall2 (field_read kvs) fs vals ->
    c_check (class_of_id ct c) vals = Ok vals' ->
    object_read kvs c (VObj c vals')
with field_read : list (pystr * value) -> field -> value -> Prop :=
| field_given kvs f x v : In (f_name f, x) kvs -> reads_as x (f_type f) v -> field_read kvs f v
| field_missing kvs f v : ~ In (f_name f) (map fst kvs) -> gives_default f v -> field_read kvs f v.

End Table.
