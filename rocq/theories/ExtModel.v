(* Model of hun_law/extractors/__init__.py and all.py: extraction, one after the other and in
   parallel.  Objects are of any type Obj with classes of any type C; extractors are functions, that
   is, what they yield depends on their object only. *)
From Verif Require Import PyBase LineModel.
Local Open Scope Z_scope.

Section extraction.
Context {Obj C : Type}.
(* __init__.py:23: the dictionary, [None] for a class that is not a key *)
Record world := mk_world { w_class : Obj -> C; w_class_eqb : C -> C -> bool; w_extractors : C -> option (list (Obj -> gen Obj)) }.

(* all.py:48-50: what the extractors of an object yield, in a row; the first error ends it *)
Fixpoint run_extractors (fs : list (Obj -> gen Obj)) (o : Obj) : res (list Obj) :=
  match fs with
  | [] => Ok []
  | f :: t =>
      match g_end (f o) with
      | Some e => Err e
      | None => l <- run_extractors t o ;; Ok (g_items (f o) ++ l)
      end
  end.
Definition extract_from (w : world) (o : Obj) : res (list Obj) :=
  match w_extractors w (w_class w o) with None => Err KeyError | Some fs => run_extractors fs o end.
Definition is_result (w : world) (classes : list C) (o : Obj) : bool := existsb (w_class_eqb w (w_class w o)) classes.

(* all.py:40-50.  The queue with its last element first; [None]: more than fuel steps.  What was
   yielded before an error is in g_items. *)
Fixpoint work (w : world) (classes : list C) (fuel : nat) (stack : list Obj) : option (gen Obj) :=
  match fuel with
  | O => None
  | S n =>
      match stack with
      | [] => Some (mk_gen [] None)
      | o :: rest =>
          if is_result w classes o then
            match work w classes n rest with Some g => Some (mk_gen (o :: g_items g) (g_end g)) | None => None end
          else
            match extract_from w o with
            | Err e => Some (mk_gen [] (Some e))
            | Ok l => work w classes n (rev l ++ rest)
            end
      end
  end.
Definition do_work (w : world) (classes : list C) (fuel : nat) (objects : list Obj) : option (gen Obj) := work w classes fuel (rev objects).

(* all.py:35-37: list() of the generator *)
Definition gen_to_list (g : gen Obj) : res (list Obj) := match g_end g with None => Ok (g_items g) | Some e => Err e end.
Definition job (w : world) (classes : list C) (fuel : nat) (o : Obj) : option (res (list Obj)) := option_map gen_to_list (do_work w classes fuel [o]).

(* all.py:53-56: the results as they come in; an exception of a worker is raised here.  Pickling
   is taken to copy faithfully. *)
Fixpoint yield_all (results : list (res (list Obj))) : gen Obj :=
  match results with
  | [] => mk_gen [] None
  | Err e :: _ => mk_gen [] (Some e)
  | Ok l :: t => let g := yield_all t in mk_gen (l ++ g_items g) (g_end g)
  end.
Fixpoint all_some {A} (l : list (option A)) : option (list A) :=
  match l with
  | [] => Some []
  | None :: _ => None
  | Some x :: t => match all_some t with Some r => Some (x :: r) | None => None end
  end.
(* [order]: the objects in the order in which their jobs complete *)
Definition do_extraction_multithreaded (w : world) (classes : list C) (fuel : nat) (order : list Obj) : option (gen Obj) :=
  option_map yield_all (all_some (map (job w classes fuel) order)).
(* all.py:59-64 *)
Definition do_extraction (w : world) (classes : list C) (fuel : nat) (objects : list Obj) (workers : Z) (order : list Obj) : option (gen Obj) :=
  if (1 <? workers) && (1 <? Z.of_nat (List.length objects)) then do_extraction_multithreaded w classes fuel order
  else do_work w classes fuel objects.
End extraction.
Arguments world : clear implicits.
