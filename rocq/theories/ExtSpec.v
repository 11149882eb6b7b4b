(* What extraction is (C43): every object is either a result or replaced by what its extractors
   yield, all the way down. *)
From Verif Require Import PyBase LineModel ExtModel.

Section extraction.
Context {Obj C : Type} (w : world Obj C) (classes : list C).
(* [results o l]: l are the results that come of o; [results_of os l] of the objects os, the last one first *)
Inductive results : Obj -> list Obj -> Prop :=
| rs_result o : is_result w classes o = true -> results o [o]
| rs_extract o os l : is_result w classes o = false -> extract_from w o = Ok os -> results_of os l -> results o l
with results_of : list Obj -> list Obj -> Prop :=
| ro_nil : results_of [] []
| ro_snoc os o l l' : results o l -> results_of os l' -> results_of (os ++ [o]) (l ++ l').
(* [fails o]: somewhere below o an extractor raises, or there is none *)
Inductive fails : Obj -> Prop :=
| fl_here o e : is_result w classes o = false -> extract_from w o = Err e -> fails o
| fl_below o os o' : is_result w classes o = false -> extract_from w o = Ok os -> In o' os -> fails o' -> fails o.
(* everything below o is reached in finitely many steps *)
Inductive finite : Obj -> Prop :=
| fi_result o : is_result w classes o = true -> finite o
| fi_error o e : is_result w classes o = false -> extract_from w o = Err e -> finite o
| fi_extract o os : is_result w classes o = false -> extract_from w o = Ok os -> all_finite os -> finite o
with all_finite : list Obj -> Prop :=
| af_nil : all_finite []
| af_cons o os : finite o -> all_finite os -> all_finite (o :: os).
End extraction.
Scheme results_ind2 := Induction for results Sort Prop
  with results_of_ind2 := Induction for results_of Sort Prop.
Combined Scheme results_mutind from results_ind2, results_of_ind2.
Scheme finite_ind2 := Induction for finite Sort Prop
  with all_finite_ind2 := Induction for all_finite Sort Prop.
Combined Scheme finite_mutind from finite_ind2, all_finite_ind2.
