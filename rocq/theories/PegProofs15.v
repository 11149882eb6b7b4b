From Coq Require Import Lia Permutation.
From Coq Require Import ZifyBool ZifyNat ZifyN.
From Verif Require Import PyBase PyBaseFacts NumModel IdModel RefModel RefSpec RefProofs TreeModel SemModel GramModel GramSpec GramProofs GramProofs2 GramProofs3 PegProofs3.
Local Open Scope Z_scope.

(** * No two references of a collector end at the same place *)

Lemma iter_level_ends k l : forall so args out o, iter_level k l so args = (out, o) -> map or_end out = map (fun it : item => snd it) l.
Proof.
  induction l as [|[[v a] b] l IH]; intros so args out o H; cbn [iter_level] in H; [injection H as <- _; reflexivity|].
  destruct (iter_level k l None args) as [r o'] eqn:E. injection H as <- _. cbn [map or_end snd]. f_equal. eapply IH; eauto.
Qed.
Lemma iter_levels_ends lv : forall k so args out o args', Forall (fun l => l <> []) lv -> iter_levels k lv so args = (out, o, args') ->
  map or_end out = flat_map (fun l => map (fun it : item => snd it) (removelast (arranged l))) lv.
Proof.
  induction lv as [|l lv IH]; intros k so args out o args' N H; cbn [iter_levels] in H; [injection H as <- _ _; reflexivity|].
  apply Forall_cons_iff in N as [N1 N]. fold (arranged l) in H. destruct (iter_level k (removelast (arranged l)) so args) as [out1 o1] eqn:E1.
  match type of H with (let '(_, _) := iter_levels ?a ?b ?c ?d in _) = _ => destruct (iter_levels a b c d) as [[out2 o3] args2] eqn:E2 end.
  injection H as <- _ _. rewrite map_app. cbn [flat_map]. f_equal; [eapply iter_level_ends; eauto|eapply IH; eauto].
Qed.

(* [m] is part of [l], in any order *)
Definition part_of {A} (m l : list A) : Prop := exists rest, Permutation (m ++ rest) l.
Lemma part_refl {A} (l : list A) : part_of l l.
Proof. exists []. now rewrite app_nil_r. Qed.
Lemma part_app {A} (m m' l l' : list A) : part_of m l -> part_of m' l' -> part_of (m ++ m') (l ++ l').
Proof.
  intros [r P] [r' P']. exists (r ++ r'). rewrite <- P, <- P', <- !app_assoc. apply Permutation_app_head. rewrite !app_assoc.
  apply Permutation_app_tail, Permutation_app_comm.
Qed.
Lemma part_perm {A} (m l l' : list A) : part_of m l -> Permutation l l' -> part_of m l'.
Proof. intros [r P] Q. exists r. now rewrite P. Qed.
Lemma part_trans {A} (a b c : list A) : part_of a b -> part_of b c -> part_of a c.
Proof. intros [r P] [r' P']. exists (r ++ r'). now rewrite app_assoc, P. Qed.
Lemma part_in {A} (m l : list A) x : part_of m l -> In x m -> In x l.
Proof. intros [r P] I. eapply Permutation_in; [exact P|]. apply in_app_iff. now left. Qed.
Lemma part_nodup {A} (m l : list A) : part_of m l -> NoDup l -> NoDup m.
Proof. intros [r P] N. apply Permutation_sym in P. apply (Permutation_NoDup P) in N. clear P. induction m as [|x m IH]; [constructor|]. cbn in N. inversion N; subst. constructor; [|auto]. intros X. apply H1, in_app_iff. now left. Qed.

Lemma grouped_part l out : grouped l out -> part_of (map ad_end out) (map ad_end l).
Proof.
  induction 1 as [|x l out N G [r P]|x y p q l out F Dx Dy G [r P]]; [apply part_refl| |].
  - exists r. cbn. now constructor.
  - exists (ad_end x :: r). cbn [map]. symmetry. apply Permutation_cons_app. cbn. constructor. now symmetry.
Qed.
Lemma held_part k out : part_of (map (fun it : item => snd it) (removelast (arranged (held k out)))) (map ad_end (at_level k out)).
Proof.
  destruct (held_cases k out) as [->|[E N]]; [exists (map ad_end (at_level k out)); cbn; reflexivity|].
  assert (NA : arranged (held k out) <> []).
  { intros Z. pose proof (Permutation_length (arranged_perm (held k out))) as P. rewrite Z, E, map_length in P. destruct (at_level k out); [contradiction|discriminate]. }
  exists [snd (last (arranged (held k out)) NO_ITEM)]. change [snd (last (arranged (held k out)) NO_ITEM)] with (map (fun it : item => snd it) [last (arranged (held k out)) NO_ITEM]).
  rewrite <- map_app, <- last_split by exact NA. rewrite arranged_perm, E, map_map. reflexivity.
Qed.
Lemma levels_perm (out : list addition) : Permutation (at_level 1 out ++ at_level 2 out ++ at_level 3 out ++ at_level 4 out) out.
Proof.
  induction out as [|x out IH]; [constructor|]. unfold at_level in *. cbn [filter]. pose proof (level_range (ad_type x)) as L.
  destruct (level_of (ad_type x)) as [|[|[|[|[|k]]]]]; [lia| | | | |lia]; cbn [Nat.eqb]; cbn [app].
  - now constructor.
  - symmetry. apply Permutation_cons_app. now symmetry.
  - symmetry. rewrite app_assoc. apply Permutation_cons_app. rewrite <- app_assoc. now symmetry.
  - symmetry. rewrite !app_assoc. apply Permutation_cons_app. rewrite <- !app_assoc. now symmetry.
Qed.
Theorem collector_ends act l c a b : Forall real l -> add_all (new_collector act) l = Ok c ->
  exists m, map or_end (collector_iter c (Some a) b) = m ++ [b] /\ part_of m (map ad_end l).
Proof.
  intros R A. destruct (collector_yields act l c (Some a) b R A) as (out & refs & o & args & G & It & ->).
  exists (map or_end refs). split; [now rewrite map_app|]. apply iter_levels_ends in It; [|apply held_levels_nonempty]. rewrite It.
  eapply part_trans; [|eapply grouped_part; exact G]. eapply part_perm; [|apply Permutation_map, levels_perm]. unfold held_levels. cbn [flat_map]. rewrite !map_app, app_nil_r.
  repeat apply part_app; apply held_part.
Qed.
