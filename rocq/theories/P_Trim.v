(* C50: the ends of wrapped lines. *)
From Verif Require Import PyBase IdModel LineModel TxtModel TxtSpec TrimSpec TrimProofs P_Txt.
Local Open Scope Z_scope.

(** C50: if textwrap splits the text into words with white space between them, of whatever length, no line ends with white space
    unless it is full. *)
Theorem C50_trimmed : forall w s indent width o, 0 < width -> neat (split_chunks w s) -> wrapped_print w s indent width = Ok o ->
  Forall (fun p => ends_blank (snd p) -> Z.of_nat (List.length (snd p)) = width) o.
Proof. exact printed_trimmed. Qed.
Print Assumptions C50_trimmed.
(* the last space of the first line is not needed, and is kept because a piece of the long word, an empty one, is dropped instead *)
Example C50_trimmed_ex : neat (split_chunks c50_wrapper (u8 "Az új szabályozások is")) /\
  wrapped_print c50_wrapper (u8 "Az új szabályozások is") (u8 "a) ") 9 = Ok [(true, u8 "a) Az új "); (true, u8 "   szabál"); (true, u8 "   yozáso"); (true, u8 "   k is")].
Proof.
  assert (Wd : forall c, forallb (fun x => negb (isspace_chr x)) c && negb (str_eqb c []) = true -> wordlike c).
  { intros c H. apply andb_true_iff in H as [H N]. split; [intros ->; discriminate|]. apply Forall_forall. rewrite forallb_forall in H. intros x I. apply negb_true_iff. auto. }
  split; [|vm_compute; reflexivity].
  match goal with |- neat ?l => let v := eval vm_compute in l in change (neat v) end.
  cbn [neat]. repeat (split; [first [right; apply Wd; reflexivity|left; split; [discriminate|repeat constructor]]|]; split; [first [intros _; apply Wd; reflexivity|intros [_ F]; inversion F; discriminate]|]). exact I.
Qed.
