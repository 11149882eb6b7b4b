(* C43: extraction does not depend on the number of workers or on which job is finished first. *)
From Coq Require Import Permutation.
From Verif Require Import PyBase LineModel ExtModel ExtSpec ExtProofs.
Local Open Scope Z_scope.

Theorem C43_results : forall Obj C (w : world Obj C) classes objects l,
  (exists fuel, do_work w classes fuel objects = Some (mk_gen l None)) <-> results_of w classes objects l.
Proof. intros. apply do_work_results. Qed.
Print Assumptions C43_results.
Theorem C43_schedules : forall Obj C (w : world Obj C) classes objects workers order workers' order' fuel l,
  Permutation objects order -> Permutation objects order' ->
  do_extraction w classes fuel objects workers order = Some (mk_gen l None) ->
  exists fuel' l', do_extraction w classes fuel' objects workers' order' = Some (mk_gen l' None) /\ Permutation l l'.
Proof. intros Obj C w classes objects workers order workers' order' fuel l. apply schedules. Qed.
Print Assumptions C43_schedules.
Theorem C43_failures : forall Obj C (w : world Obj C) classes objects workers order workers' order' fuel g e,
  Permutation objects order -> Permutation objects order' -> Forall (finite w classes) objects ->
  do_extraction w classes fuel objects workers order = Some g -> g_end g = Some e ->
  exists fuel' g' e', do_extraction w classes fuel' objects workers' order' = Some g' /\ g_end g' = Some e'.
Proof. intros Obj C w classes objects workers order workers' order' fuel g e. apply failures. Qed.
Print Assumptions C43_failures.
(* the bound on the number of steps does not matter *)
Theorem C43_determined : forall Obj C (w : world Obj C) classes fuel fuel' objects workers order g g',
  do_extraction w classes fuel objects workers order = Some g -> do_extraction w classes fuel' objects workers order = Some g' -> g = g'.
Proof. intros Obj C w classes fuel fuel' objects workers order g g'. apply extraction_det. Qed.
Print Assumptions C43_determined.

(* objects of level 0, that are split into two of level 1, that are turned into three results of level 2 each; no extractor for level 3 *)
Definition c43_world : world (nat * Z) nat :=
  mk_world fst Nat.eqb (fun c => match c with
    | O => Some [fun o => mk_gen [(1%nat, 10 * snd o); (1%nat, 10 * snd o + 1)] None]
    | 1%nat => Some [fun o => mk_gen [(2%nat, 10 * snd o); (2%nat, 10 * snd o + 1)] None; fun o => mk_gen [(2%nat, 10 * snd o + 2)] None]
    | _ => None
    end).
Definition c43_values (o : option (gen (nat * Z))) : option (list Z * option exn) := option_map (fun g => (map snd (g_items g), g_end g)) o.
Example C43_ex :
  c43_values (do_extraction c43_world [2%nat] 20 [(O, 1); (1%nat, 7)] 1 []) = Some ([72; 71; 70; 112; 111; 110; 102; 101; 100], None) /\
  c43_values (do_extraction c43_world [2%nat] 20 [(O, 1); (1%nat, 7)] 4 [(O, 1); (1%nat, 7)]) = Some ([112; 111; 110; 102; 101; 100; 72; 71; 70], None) /\
  c43_values (do_extraction c43_world [2%nat] 20 [(O, 1); (3%nat, 7)] 1 []) = Some ([], Some KeyError) /\
  c43_values (do_extraction c43_world [2%nat] 20 [(O, 1); (3%nat, 7)] 2 [(O, 1); (3%nat, 7)]) = Some ([112; 111; 110; 102; 101; 100], Some KeyError).
Proof. repeat split; vm_compute; reflexivity. Qed.
Example C43_finite_ex : Forall (finite c43_world [2%nat]) [(O, 1); (3%nat, 7)].
Proof.
  assert (R : forall x, finite c43_world [2%nat] (2%nat, x)) by (intros x; apply fi_result; reflexivity).
  assert (M : forall x, finite c43_world [2%nat] (1%nat, x)) by (intros x; eapply fi_extract; [reflexivity|reflexivity|]; cbn [app snd g_items]; repeat (constructor; [apply R|]); constructor).
  constructor; [|constructor; [|constructor]].
  - eapply fi_extract; [reflexivity|reflexivity|]. repeat (constructor; [apply M|]). constructor.
  - eapply fi_error; reflexivity.
Qed.

(* The order of the results does depend on the number of workers, and one worker takes the objects
   from the last to the first; so do the results that are there before an error. *)
Theorem C43_order_refuted : ~ forall Obj C (w : world Obj C) classes objects workers workers' fuel g g',
  do_extraction w classes fuel objects workers objects = Some g -> do_extraction w classes fuel objects workers' objects = Some g' -> g_items g = g_items g'.
Proof.
  intros H. specialize (H _ _ c43_world [2%nat] [(2%nat, 1); (2%nat, 7)] 1 4 20%nat _ _ eq_refl eq_refl). vm_compute in H. discriminate.
Qed.
Print Assumptions C43_order_refuted.
