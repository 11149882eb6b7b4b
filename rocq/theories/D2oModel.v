(* Model of hun_law/dict2object.py: converters between objects and plain data, for any classes. *)
From Coq Require Import Floats.SpecFloat.
From Verif Require Import PyBase IdModel LineModel.
Local Open Scope Z_scope.

(** * Python values and types *)

(* A class or an enum is identified by a string; its __name__ is in the class table. *)
Notation cid := pystr (only parsing).

(* VDict is a dict with string keys.  VObj is an object of an attrs class: the values of the fields
   that are arguments of __init__, in the order of the fields; fields with init=False are functions
   of them and are left out. *)
Inductive value :=
| VBool (b : bool)
| VInt (i : Z)
| VFloat (f : pyfloat)
| VStr (s : pystr)
| VNone
| VList (l : list value)
| VTuple (l : list value)
| VDict (l : list (pystr * value))
| VEnum (e : cid) (member : pystr)
| VType (c : cid)
| VObj (c : cid) (fields : list value).

(* The annotations.  TTypeOf is Type[C] or Type[Union[C1, ...]]; TOther is any other.  Bare list,
   tuple and type are left out. *)
Inductive ty :=
| TBool | TInt | TFloat | TStr | TNone
| TList (t : ty)
| TVarTuple (t : ty)
| TTuple (ts : list ty)
| TEnum (e : cid)
| TTypeOf (cs : list cid)
| TClass (c : cid)
| TUnion (ts : list ty)
| TOther.

(* attr.ib: no default, a default value, or a factory (of a constant).  attrs keeps the Factory
   object in [default], and no value equals that. *)
Inductive default_ := NoDefault | Default (v : value) | Factory (v : value).
Record field := mk_field { f_name : pystr; f_type : ty; f_default : default_; f_eq : bool }.
(* [c_fields]: attr.fields with init=True, or None for a class that is not an attrs class.
   [c_check]: the converters, validators and other code of __init__, from the values of the
   arguments to the values that are stored.  [c_meta]: the class of the class is not [type] but,
   say, ABCMeta. *)
Record class_info := mk_class {
  c_name : pystr;
  c_subclasses : list cid;
  c_fields : option (list field);
  c_check : list value -> res (list value);
  c_meta : bool
}.
Record table := mk_table {
  t_classes : list (cid * class_info);
  t_enums : list (cid * list pystr)
}.

Fixpoint lookup {A} (k : pystr) (l : list (pystr * A)) : option A :=
  match l with
  | [] => None
  | (k', v) :: t => if str_eqb k k' then Some v else lookup k t
  end.
(* d[k] = v: in place, or at the end *)
Fixpoint dict_set {K A} (eqb : K -> K -> bool) (k : K) (v : A) (l : list (K * A)) : list (K * A) :=
  match l with
  | [] => [(k, v)]
  | (k', v') :: t => if eqb k k' then (k', v) :: t else (k', v') :: dict_set eqb k v t
  end.

Definition no_class : class_info := mk_class [] [] None (fun _ => Err TypeError) false.
Definition class_of_id (ct : table) (c : cid) : class_info :=
  match lookup c (t_classes ct) with Some i => i | None => no_class end.

(** type(v) *)
Inductive pytype :=
| YBool | YInt | YFloat | YStr | YNone | YList | YTuple | YDict | YType | YMeta
| YEnum (e : cid) | YClass (c : cid).
Definition type_of (ct : table) (v : value) : pytype :=
  match v with
  | VBool _ => YBool | VInt _ => YInt | VFloat _ => YFloat | VStr _ => YStr | VNone => YNone
  | VList _ => YList | VTuple _ => YTuple | VDict _ => YDict
  | VEnum e _ => YEnum e
  | VType c => if c_meta (class_of_id ct c) then YMeta else YType
  | VObj c _ => YClass c
  end.
Definition pytype_eqb (a b : pytype) : bool :=
  match a, b with
  | YBool, YBool | YInt, YInt | YFloat, YFloat | YStr, YStr | YNone, YNone | YList, YList | YTuple, YTuple
  | YDict, YDict | YType, YType | YMeta, YMeta => true
  | YEnum x, YEnum y | YClass x, YClass y => str_eqb x y
  | _, _ => false
  end.
Fixpoint lookup_type {A} (k : pytype) (l : list (pytype * A)) : option A :=
  match l with
  | [] => None
  | (k', v) :: t => if pytype_eqb k k' then Some v else lookup_type k t
  end.
Definition list_eqb {A} (eqb : A -> A -> bool) : list A -> list A -> bool :=
  fix go (l m : list A) : bool :=
    match l, m with
    | [], [] => true
    | x :: l, y :: m => eqb x y && go l m
    | _, _ => false
    end.
(* equality of annotations, as needed at dict2object.py:313; unions are not compared *)
Fixpoint ty_eqb (a b : ty) {struct a} : bool :=
  match a, b with
  | TBool, TBool | TInt, TInt | TFloat, TFloat | TStr, TStr | TNone, TNone => true
  | TList x, TList y | TVarTuple x, TVarTuple y => ty_eqb x y
  | TTuple xs, TTuple ys => list_eqb ty_eqb xs ys
  | TEnum x, TEnum y | TClass x, TClass y => str_eqb x y
  | TTypeOf x, TTypeOf y => list_eqb str_eqb x y
  | _, _ => false
  end.

(* dict2object.py:44-52; [fuel] bounds the depth of inheritance *)
Fixpoint class_and_subclasses (ct : table) (fuel : nat) (c : cid) : list cid :=
  c :: match fuel with
       | O => []
       | S n => flat_map (class_and_subclasses ct n) (c_subclasses (class_of_id ct c))
       end.
Definition subclasses_recursive (ct : table) (c : cid) : list cid :=
  class_and_subclasses ct (length (t_classes ct)) c.
Definition candidates_of (ct : table) (t : ty) : list ty :=
  match t with
  | TClass c => map TClass (subclasses_recursive ct c)
  | _ => [t]
  end.

(** * Equality (v == w) *)

(* the exact value of a finite float, as an integer times a power of two *)
Definition int_eq_float (i : Z) (f : pyfloat) : bool :=
  match f with
  | S754_zero _ => i =? 0
  | S754_finite s m e =>
      let m := if (s : bool) then Z.neg m else Z.pos m in
      if 0 <=? e then i =? m * 2 ^ e else i * 2 ^ (- e) =? m
  | _ => false
  end.
Definition int_of_bool (b : bool) : Z := if b then 1 else 0.
(* Numbers compare by value, lists and tuples by elements, attrs objects by class and the fields
   that take part in comparison.  No value has a dict as a field: dicts are not compared here. *)
Fixpoint py_eq (ct : table) (v w : value) {struct v} : bool :=
  match v, w with
  | VBool a, VBool b => Bool.eqb a b
  | VBool a, VInt j => int_of_bool a =? j
  | VBool a, VFloat f => int_eq_float (int_of_bool a) f
  | VInt i, VBool b => i =? int_of_bool b
  | VInt i, VInt j => i =? j
  | VInt i, VFloat f => int_eq_float i f
  | VFloat f, VBool b => int_eq_float (int_of_bool b) f
  | VFloat f, VInt j => int_eq_float j f
  | VFloat f, VFloat g => f_eqb f g
  | VStr s, VStr t => str_eqb s t
  | VNone, VNone => true
  | VList l, VList m => list_eqb (py_eq ct) l m
  | VTuple l, VTuple m => list_eqb (py_eq ct) l m
  | VEnum e x, VEnum e' y => str_eqb e e' && str_eqb x y
  | VType c, VType c' => str_eqb c c'
  | VObj c l, VObj c' m =>
      str_eqb c c' &&
      match c_fields (class_of_id ct c) with
      | None => false
      | Some fs =>
          (fix go (fs : list field) (l m : list value) {struct l} : bool :=
             match fs, l, m with
             | f :: fs, x :: l, y :: m => (negb (f_eq f) || py_eq ct x y) && go fs l m
             | [], [], [] => true
             | _, _, _ => false
             end) fs l m
      end
  | _, _ => false
  end.

(** * Converters *)

(* The converters with what their setup() stores.  Subconverters are kept as their types: the
   factory makes one converter for each type (dict2object.py:370-372).  In the program all
   converters are set up before the first conversion; here when they are needed. *)
Inductive basic :=
| BNoop (t : pytype)                       (* dict2object.py:85-102 *)
| BList (t : ty)                           (* 105-125 *)
| BVarTuple (t : ty)                       (* 128-146 *)
| BTuple (ts : list ty)                    (* 149-166 *)
| BEnum (e : cid)                          (* 169-186 *)
| BTypeName (types : list (pystr * cid))   (* 189-213 *)
| BAttrs (c : cid).                        (* 216-253 *)

(* input_types(), which has one element, and converted_type() *)
Definition input_type (b : basic) : pytype :=
  match b with
  | BNoop t => t | BList _ => YList | BVarTuple _ | BTuple _ => YTuple
  | BEnum e => YEnum e | BTypeName _ => YType | BAttrs c => YClass c
  end.
Definition converted_type (b : basic) : pytype :=
  match b with
  | BNoop t => t | BList _ | BVarTuple _ | BTuple _ => YList
  | BEnum _ | BTypeName _ => YStr | BAttrs _ => YDict
  end.

(* dict2object.py:193-201; [all_possible_types] is a set: with equal names, which class wins is
   not determined; here the last *)
Definition type_names (ct : table) (cs : list cid) : list (pystr * cid) :=
  fold_left (fun d c => dict_set str_eqb (c_name (class_of_id ct c)) c d)
            (flat_map (subclasses_recursive ct) cs) [].

(* dict2object.py:374-397 with handle_subclasses=False, except unions *)
Definition create_basic (ct : table) (t : ty) : res basic :=
  match t with
  | TBool => Ok (BNoop YBool) | TInt => Ok (BNoop YInt) | TFloat => Ok (BNoop YFloat)
  | TStr => Ok (BNoop YStr) | TNone => Ok (BNoop YNone)
  | TList t => Ok (BList t)
  | TVarTuple t => Ok (BVarTuple t)
  | TTuple ts => Ok (BTuple ts)
  | TEnum e => Ok (BEnum e)
  | TTypeOf cs => Ok (BTypeName (type_names ct cs))
  | TClass c => match c_fields (class_of_id ct c) with Some _ => Ok (BAttrs c) | None => Err TypeError end
  | TUnion _ => Err TypeError   (* a union in a union: converted_type() raises (352-353) *)
  | TOther => Err TypeError
  end.

(* dict2object.py:256-278 *)
Record disambiguator := mk_dis {
  dd_dict : list (pytype * basic);
  dd_obj : list (pystr * basic);
  dd_default : option basic
}.
Definition type_name (ct : table) (t : pytype) : pystr :=
  match t with YClass c => c_name (class_of_id ct c) | _ => [] end.
Fixpoint new_disambiguator (ct : table) (l : list basic) (d : disambiguator) : res disambiguator :=
  match l with
  | [] => Ok d
  | b :: t =>
      let n := type_name ct (input_type b) in
      match lookup n (dd_obj d) with
      | Some _ => Err TypeError
      | None =>
          new_disambiguator ct t
            (mk_dis (dict_set pytype_eqb (input_type b) b (dd_dict d)) (dict_set str_eqb n b (dd_obj d))
                    (match dd_default d with None => Some b | x => x end))
      end
  end.

(* dict2object.py:296-322 *)
Record union := mk_union {
  u_dict : list (pytype * basic);
  u_obj : list (pytype * basic);
  u_dis : disambiguator
}.
(* all_possible_types (310-314) *)
Fixpoint distinct_types (l : list ty) : list ty :=
  match l with
  | [] => []
  | t :: r => t :: filter (fun u => negb (ty_eqb u t)) (distinct_types r)
  end.
(* dict2object.py:324-332; the check looks for the converted type among the input types *)
Definition add_typed_subconverter (d o : list (pytype * basic)) (b : basic)
  : res (list (pytype * basic) * list (pytype * basic)) :=
  match lookup_type (converted_type b) d with
  | Some _ => Err TypeError
  | None => Ok (dict_set pytype_eqb (input_type b) b d, dict_set pytype_eqb (converted_type b) b o)
  end.
Fixpoint setup_multi (ct : table) (l : list ty) (d o : list (pytype * basic)) (dicts : list basic) : res union :=
  match l with
  | [] => dis <- new_disambiguator ct dicts (mk_dis [] [] None) ;; Ok (mk_union d o dis)
  | t :: r =>
      b <- create_basic ct t ;;
      if pytype_eqb (converted_type b) YDict then setup_multi ct r d o (dicts ++ [b])
      else
        ' (d', o') <- add_typed_subconverter d o b ;;
        setup_multi ct r d' o' dicts
  end.
Definition new_union (ct : table) (ts : list ty) : res union :=
  setup_multi ct (distinct_types (flat_map (candidates_of ct) ts)) [] [] [].

Inductive converter := Basic (b : basic) | Union (u : union).
(* dict2object.py:363-404 *)
Definition create (ct : table) (t : ty) : res converter :=
  match t with
  | TClass c =>
      match c_subclasses (class_of_id ct c) with
      | _ :: _ => u <- new_union ct [t] ;; Ok (Union u)
      | [] => b <- create_basic ct t ;; Ok (Basic b)
      end
  | TUnion ts => u <- new_union ct ts ;; Ok (Union u)
  | _ => b <- create_basic ct t ;; Ok (Basic b)
  end.

Definition TYPE_KEY : pystr := u8 "__type__".

(* UnionConverter.to_dict (339-347) and DictDisambiguator.to_dict (289-293): the converter, and the
   type name that is added to its result *)
Definition choose_to_dict (ct : table) (c : converter) (v : value) : res (basic * option pystr) :=
  match c with
  | Basic b => Ok (b, None)
  | Union u =>
      match lookup_type (type_of ct v) (dd_dict (u_dis u)) with
      | Some b =>
          Ok (b, if (1 <? length (dd_dict (u_dis u)))%nat then Some (type_name ct (type_of ct v)) else None)
      | None =>
          match lookup_type (type_of ct v) (u_dict u) with
          | Some b => Ok (b, None)
          | None => Err TypeError
          end
      end
  end.
(* UnionConverter.to_object (334-337) and DictDisambiguator.to_object (283-287) *)
Definition choose_to_object (ct : table) (c : converter) (d : value) : res basic :=
  match c with
  | Basic b => Ok b
  | Union u =>
      match d with
      | VDict kvs =>
          match (length (dd_obj (u_dis u)) =? 1)%nat, lookup TYPE_KEY kvs with
          | true, _ | false, None =>
              match dd_default (u_dis u) with Some b => Ok b | None => Err AssertionError end
          | false, Some (VStr n) =>
              match lookup n (dd_obj (u_dis u)) with Some b => Ok b | None => Err KeyError end
          | false, Some _ => Err KeyError
          end
      | _ =>
          match lookup_type (type_of ct d) (u_obj u) with
          | Some b => Ok b
          | None => Err KeyError
          end
      end
  end.

Definition fields_of (ct : table) (c : cid) : list field :=
  match c_fields (class_of_id ct c) with Some fs => fs | None => [] end.
Fixpoint find_field (k : pystr) (fs : list field) : option field :=
  match fs with
  | [] => None
  | f :: t => if str_eqb k (f_name f) then Some f else find_field k t
  end.
Definition is_default (ct : table) (f : field) (v : value) : bool :=
  match f_default f with Default d => py_eq ct v d | _ => false end.

(* to_dict of all converters.  Here iterating is modelled for lists and tuples: another value is a
   TypeError (in the program strings and dicts can be iterated too). *)
Fixpoint to_dict (ct : table) (v : value) (t : ty) {struct v} : res value :=
  c <- create ct t ;;
  ' (b, tag) <- choose_to_dict ct c v ;;
  r <- (match b with
        | BNoop _ => Ok v
        | BList u | BVarTuple u =>
            match v with
            | VList l | VTuple l =>
                l' <- (fix go (l : list value) : res (list value) :=
                         match l with [] => Ok [] | x :: r => y <- to_dict ct x u ;; r' <- go r ;; Ok (y :: r') end) l ;;
                Ok (VList l')
            | _ => Err TypeError
            end
        | BTuple us =>
            match v with
            | VList l | VTuple l =>
                l' <- (fix go (l : list value) (us : list ty) {struct l} : res (list value) :=
                         match l, us with
                         | x :: r, u :: us => y <- to_dict ct x u ;; r' <- go r us ;; Ok (y :: r')
                         | _, _ => Ok []
                         end) l us ;;
                Ok (VList l')
            | _ => Err TypeError
            end
        | BEnum _ => match v with VEnum _ m => Ok (VStr m) | _ => Err AttributeError end
        | BTypeName _ => match v with VType c => Ok (VStr (c_name (class_of_id ct c))) | _ => Err AttributeError end
        | BAttrs c =>
            match v with
            | VObj c' vals =>
                kvs <- (fix go (fs : list field) (vals : list value) {struct vals} : res (list (pystr * value)) :=
                          match fs, vals with
                          | f :: fs, x :: r =>
                              if is_default ct f x then go fs r
                              else
                                match find_field (f_name f) (fields_of ct c) with
                                | None => Err KeyError
                                | Some g => y <- to_dict ct x (f_type g) ;; r' <- go fs r ;; Ok ((f_name f, y) :: r')
                                end
                          | _, _ => Ok []
                          end) (fields_of ct c') vals ;;
                Ok (VDict kvs)
            | _ => Err TypeError
            end
        end) ;;
  match tag with
  | None => Ok r
  | Some n => match r with VDict kvs => Ok (VDict (dict_set str_eqb TYPE_KEY (VStr n) kvs)) | _ => Err TypeError end
  end.

(* The generated __init__: the argument of a field is its name without leading underscores. *)
Fixpoint lstrip_underscores (s : pystr) : pystr :=
  match s with c :: t => if (c =? 95)%N then lstrip_underscores t else s | [] => [] end.
Fixpoint init_values (fs : list field) (kwargs : list (pystr * value)) : res (list value) :=
  match fs with
  | [] => Ok []
  | f :: t =>
      v <- (match lookup (lstrip_underscores (f_name f)) kwargs, f_default f with
            | Some v, _ => Ok v
            | None, (Default v | Factory v) => Ok v
            | None, NoDefault => Err TypeError
            end) ;;
      r <- init_values t kwargs ;;
      Ok (v :: r)
  end.
Definition init (ct : table) (c : cid) (kwargs : list (pystr * value)) : res value :=
  let fs := fields_of ct c in
  if forallb (fun kv => existsb (fun f => str_eqb (fst kv) (lstrip_underscores (f_name f))) fs) kwargs then
    vals <- init_values fs kwargs ;;
    vals' <- c_check (class_of_id ct c) vals ;;
    Ok (VObj c vals')
  else Err TypeError.

(* dict2object.py:236-237 *)
Definition strip_one_underscore (s : pystr) : pystr :=
  match s with c :: t => if (c =? 95)%N then t else s | [] => [] end.

(* Iterating a string gives its characters, iterating a dict its keys. *)
Definition of_string (ct : table) (b : basic) (s : pystr) : res value :=
  match b with
  | BNoop _ => Ok (VStr s)
  | BEnum e =>
      match lookup e (t_enums ct) with
      | Some ms => if existsb (str_eqb s) ms then Ok (VEnum e s) else Err KeyError
      | None => Err KeyError
      end
  | BTypeName types => match lookup s types with Some c => Ok (VType c) | None => Err KeyError end
  | BAttrs _ => Err AttributeError
  | BList _ | BVarTuple _ | BTuple _ => Err TypeError
  end.
(* to_object of all converters for a string that comes from iterating: a character or a key.  Of
   the members of a union the one for strings is chosen, which does not iterate. *)
Fixpoint str_to_object (ct : table) (s : pystr) (t : ty) {struct t} : res value :=
  match t with
  | TList u => l <- mapM (fun c => str_to_object ct [c] u) s ;; Ok (VList l)
  | TVarTuple u => l <- mapM (fun c => str_to_object ct [c] u) s ;; Ok (VTuple l)
  | TTuple us =>
      l <- (fix go (us : list ty) (s : pystr) {struct us} : res (list value) :=
              match us, s with
              | u :: us, c :: r => y <- str_to_object ct [c] u ;; r' <- go us r ;; Ok (y :: r')
              | _, _ => Ok []
              end) us s ;;
      Ok (VTuple l)
  | _ => c <- create ct t ;; b <- choose_to_object ct c (VStr s) ;; of_string ct b s
  end.

(* to_object of all converters *)
Fixpoint to_object (ct : table) (d : value) (t : ty) {struct d} : res value :=
  c <- create ct t ;;
  b <- choose_to_object ct c d ;;
  match b with
  | BNoop _ => Ok d
  | BList u | BVarTuple u =>
      l' <- (match d with
             | VList l | VTuple l =>
                 (fix go (l : list value) : res (list value) :=
                    match l with [] => Ok [] | x :: r => y <- to_object ct x u ;; r' <- go r ;; Ok (y :: r') end) l
             | VStr s => mapM (fun c => str_to_object ct [c] u) s
             | VDict kvs => mapM (fun kv => str_to_object ct (fst kv) u) kvs
             | _ => Err TypeError
             end) ;;
      Ok (match b with BList _ => VList l' | _ => VTuple l' end)
  | BTuple us =>
      l' <- (match d with
             | VList l | VTuple l =>
                 (fix go (l : list value) (us : list ty) {struct l} : res (list value) :=
                    match l, us with
                    | x :: r, u :: us => y <- to_object ct x u ;; r' <- go r us ;; Ok (y :: r')
                    | _, _ => Ok []
                    end) l us
             | VStr s => mapM (fun cu => str_to_object ct [fst cu] (snd cu)) (combine s us)
             | VDict kvs => mapM (fun cu => str_to_object ct (fst (fst cu)) (snd cu)) (combine kvs us)
             | _ => Err TypeError
             end) ;;
      Ok (VTuple l')
  | BEnum e =>
      match d with
      | VStr s =>
          match lookup e (t_enums ct) with
          | Some ms => if existsb (str_eqb s) ms then Ok (VEnum e s) else Err KeyError
          | None => Err KeyError
          end
      | _ => Err KeyError
      end
  | BTypeName types =>
      match d with
      | VStr s => match lookup s types with Some c => Ok (VType c) | None => Err KeyError end
      | _ => Err KeyError
      end
  | BAttrs c =>
      match d with
      | VDict kvs =>
          kwargs <- (fix go (kvs : list (pystr * value)) (acc : list (pystr * value)) {struct kvs} : res (list (pystr * value)) :=
                       match kvs with
                       | [] => Ok acc
                       | (k, x) :: r =>
                           if str_eqb k TYPE_KEY then go r acc
                           else
                             match find_field k (fields_of ct c) with
                             | None => Err KeyError
                             | Some f => y <- to_object ct x (f_type f) ;; go r (dict_set str_eqb (strip_one_underscore k) y acc)
                             end
                       end) kvs [] ;;
          init ct c kwargs
      | _ => Err AttributeError
      end
  end.
