(* A concrete format for the examples of P_Cache.v: data as a list of numbers, in prefix notation. *)
From Coq Require Import Lia.
From Coq Require Import ZifyBool ZifyNat ZifyN.
From Coq Require Import Floats.SpecFloat.
From Verif Require Import PyBase PyBaseFacts LineModel PdfModel D2oModel D2oSpec CacheModel CacheSpec.
Local Open Scope Z_scope.

Definition bool_num (b : bool) : N := if b then 1 else 0.
Definition enc_Z (z : Z) : list N := [bool_num (z <? 0); Z.abs_N z].
Definition enc_str (s : pystr) : list N := N.of_nat (List.length s) :: s.
Definition enc_float (f : pyfloat) : list N :=
  match f with
  | S754_zero b => [0; bool_num b]%N
  | S754_infinity b => [1; bool_num b]%N
  | S754_nan => [2]%N
  | S754_finite b m e => 3%N :: bool_num b :: Npos m :: enc_Z e
  end.
Fixpoint enc (v : value) : list N :=
  match v with
  | VBool b => [1; bool_num b]%N
  | VInt i => 2%N :: enc_Z i
  | VFloat f => 3%N :: enc_float f
  | VStr s => 4%N :: enc_str s
  | VNone => [5]%N
  | VList l => 6%N :: N.of_nat (List.length l) :: flat_map enc l
  | VDict l => 7%N :: N.of_nat (List.length l) :: flat_map (fun kv => enc_str (fst kv) ++ enc (snd kv)) l
  | _ => []
  end.

Definition rd (A : Type) := list N -> res (A * list N).
Definition rd_bind {A B} (m : rd A) (f : A -> rd B) : rd B := fun s => ' (a, r) <- m s ;; f a r.
Definition rd_ret {A} (a : A) : rd A := fun s => Ok (a, s).
Definition rd_num : rd N := fun s => match s with [] => Err ValueError | n :: r => Ok (n, r) end.
Definition rd_map {A B} (f : A -> B) (m : rd A) : rd B := rd_bind m (fun a => rd_ret (f a)).
Definition rd_bool : rd bool := rd_map (N.eqb 1) rd_num.
Definition rd_Z : rd Z := rd_bind rd_bool (fun neg => rd_map (fun n => if neg then - Z.of_N n else Z.of_N n) rd_num).
Fixpoint rd_many {A} (m : rd A) (n : nat) : rd (list A) :=
  match n with O => rd_ret [] | S n => rd_bind m (fun a => rd_map (cons a) (rd_many m n)) end.
Definition rd_str : rd pystr := rd_bind rd_num (fun n => rd_many rd_num (N.to_nat n)).
Definition rd_fail {A} : rd A := fun _ => Err ValueError.
Definition rd_float : rd pyfloat := rd_bind rd_num (fun t =>
  if N.eqb t 0 then rd_map S754_zero rd_bool
  else if N.eqb t 1 then rd_map S754_infinity rd_bool
  else if N.eqb t 2 then rd_ret S754_nan
  else rd_bind rd_bool (fun b => rd_bind rd_num (fun m => rd_map (S754_finite b (match m with Npos p => p | N0 => 1%positive end)) rd_Z))).
Fixpoint dec (fuel : nat) : rd value :=
  match fuel with
  | O => rd_fail
  | S fuel => rd_bind rd_num (fun t =>
      if N.eqb t 1 then rd_map VBool rd_bool
      else if N.eqb t 2 then rd_map VInt rd_Z
      else if N.eqb t 3 then rd_map VFloat rd_float
      else if N.eqb t 4 then rd_map VStr rd_str
      else if N.eqb t 5 then rd_ret VNone
      else if N.eqb t 6 then rd_bind rd_num (fun n => rd_map VList (rd_many (dec fuel) (N.to_nat n)))
      else if N.eqb t 7 then rd_bind rd_num (fun n => rd_map VDict (rd_many (rd_bind rd_str (fun k => rd_map (pair k) (dec fuel))) (N.to_nat n)))
      else rd_fail)
  end.
Definition example_read (b : list N) : res value := ' (v, r) <- dec (List.length b) b ;; match r with [] => Ok v | _ => Err ValueError end.

(* more input changes nothing *)
Definition stable {A} (m m' : rd A) : Prop := forall s t a r, m s = Ok (a, r) -> m' (s ++ t) = Ok (a, r ++ t).
Lemma stable_bind {A B} (m m' : rd A) (f f' : A -> rd B) : stable m m' -> (forall a, stable (f a) (f' a)) -> stable (rd_bind m f) (rd_bind m' f').
Proof. intros M F s t b r E. unfold rd_bind in *. destruct (m s) as [[a r']|] eqn:Em; [|discriminate]. cbn [bind] in E. rewrite (M _ t _ _ Em). cbn [bind]. now apply F. Qed.
Lemma stable_ret {A} (a : A) : stable (rd_ret a) (rd_ret a).
Proof. intros s t b r E. unfold rd_ret in *. now injection E as -> ->. Qed.
Lemma stable_fail {A} (m : rd A) : stable rd_fail m.
Proof. intros s t a r E. discriminate. Qed.
Lemma stable_num : stable rd_num rd_num.
Proof. intros [|n s] t a r E; [discriminate|]. cbn in *. now injection E as -> ->. Qed.
Lemma stable_map {A B} (f : A -> B) m m' : stable m m' -> stable (rd_map f m) (rd_map f m').
Proof. intros M. apply stable_bind; auto. intros a. apply stable_ret. Qed.
Lemma stable_many {A} (m m' : rd A) n : stable m m' -> stable (rd_many m n) (rd_many m' n).
Proof. intros M. induction n as [|n IH]; [apply stable_ret|]. apply stable_bind; auto. intros a. now apply stable_map. Qed.
#[local] Hint Resolve stable_ret stable_fail stable_num stable_map stable_many : st.
Lemma stable_Z : stable rd_Z rd_Z.
Proof. unfold rd_Z, rd_bool. apply stable_bind; auto with st. Qed.
Lemma stable_str : stable rd_str rd_str.
Proof. unfold rd_str. apply stable_bind; auto with st. Qed.
#[local] Hint Resolve stable_Z stable_str : st.
Lemma stable_float : stable rd_float rd_float.
Proof.
  unfold rd_float, rd_bool. apply stable_bind; auto with st. intros t. repeat (destruct (N.eqb t _); auto with st). apply stable_bind; auto with st. intros b. apply stable_bind; auto with st.
Qed.
#[local] Hint Resolve stable_float : st.
Lemma stable_dec f f' : (f <= f')%nat -> stable (dec f) (dec f').
Proof.
  revert f'. induction f as [|f IH]; intros f' L; [apply stable_fail|]. destruct f' as [|f']; [lia|]. specialize (IH f' ltac:(lia)). cbn [dec]. unfold rd_bool. apply stable_bind; auto with st. intros t.
  do 5 (destruct (N.eqb t _); [auto with st; fail|]).
  destruct (N.eqb t 6); [apply stable_bind; auto with st|]. destruct (N.eqb t 7); auto with st. apply stable_bind; auto with st. intros n. apply stable_map. apply stable_many. apply stable_bind; auto with st.
Qed.

(* what is written is read *)
Definition reads {A} (m : rd A) (e : list N) (a : A) : Prop := forall r, m (e ++ r) = Ok (a, r).
Lemma reads_bind {A B} (m : rd A) (f : A -> rd B) e e' a b : reads m e a -> reads (f a) e' b -> reads (rd_bind m f) (e ++ e') b.
Proof. intros M F r. unfold rd_bind. rewrite <- app_assoc, M. cbn [bind]. apply F. Qed.
Lemma reads_map {A B} (f : A -> B) m e a : reads m e a -> reads (rd_map f m) e (f a).
Proof. intros M r. unfold rd_map, rd_bind. now rewrite M. Qed.
Lemma reads_num n : reads rd_num [n] n.
Proof. intros r. reflexivity. Qed.
Lemma reads_bool b : reads rd_bool [bool_num b] b.
Proof. intros r. now destruct b. Qed.
Lemma reads_Z z : reads rd_Z (enc_Z z) z.
Proof. apply (reads_bind _ _ [_] [_] (z <? 0)); [apply reads_bool|]. intros r. unfold rd_map, rd_bind, rd_ret. cbn [rd_num app bind]. destruct (z <? 0) eqn:E; do 2 f_equal; lia. Qed.
Lemma reads_many {A} (m : rd A) (e : A -> list N) l : Forall (fun a => reads m (e a) a) l -> reads (rd_many m (List.length l)) (flat_map e l) l.
Proof.
  induction 1 as [|a l H F IH]; [intros r; reflexivity|]. cbn [List.length rd_many flat_map]. eapply reads_bind; [exact H|]. now apply reads_map.
Qed.
Lemma reads_str s : reads rd_str (enc_str s) s.
Proof.
  apply (reads_bind _ _ [_] s (N.of_nat (List.length s))); [apply reads_num|]. rewrite Nat2N.id. pose proof (reads_many rd_num (fun n => [n]) s) as H.
  replace (flat_map (fun n => [n]) s) with s in H by (clear; induction s; cbn; congruence). apply H. apply Forall_forall. intros n _. apply reads_num.
Qed.
Lemma reads_float f : reads rd_float (enc_float f) f.
Proof.
  destruct f as [b|b| |b m e]; unfold rd_float; cbn [enc_float].
  - apply (reads_bind _ _ [_] [_] 0%N); [apply reads_num|]. cbn. apply reads_map, reads_bool.
  - apply (reads_bind _ _ [_] [_] 1%N); [apply reads_num|]. cbn. apply reads_map, reads_bool.
  - intros r. reflexivity.
  - apply (reads_bind _ _ [_] (_ :: _) 3%N); [apply reads_num|]. cbn. apply (reads_bind _ _ [_] (_ :: _) b); [apply reads_bool|]. apply (reads_bind _ _ [_] (_ :: _) (Npos m)); [apply reads_num|]. cbn. apply reads_map, reads_Z.
Qed.
Lemma part_shorter {A} (e : A -> list N) a l : In a l -> (List.length (e a) <= List.length (flat_map e l))%nat.
Proof. induction l as [|b l IH]; intros []; cbn [flat_map]; rewrite app_length; [subst; lia|]. apply IH in H. lia. Qed.
Lemma reads_dec f : forall v, plain v -> (List.length (enc v) <= f)%nat -> reads (dec f) (enc v) v.
Proof.
  induction f as [|f IH]; intros v P L; [destruct v; try (inversion P; fail); cbn in L; lia|]. destruct v as [b|i|f0|s| |l|?|l|? ?|?|? ?]; try (inversion P; fail); cbn [dec enc].
  - apply (reads_bind _ _ [_] [_] 1%N); [apply reads_num|]. cbn. apply reads_map, reads_bool.
  - apply (reads_bind _ _ [_] (enc_Z i) 2%N); [apply reads_num|]. cbn. apply reads_map, reads_Z.
  - apply (reads_bind _ _ [_] (enc_float f0) 3%N); [apply reads_num|]. cbn. apply reads_map, reads_float.
  - apply (reads_bind _ _ [_] (enc_str s) 4%N); [apply reads_num|]. cbn. apply reads_map, reads_str.
  - intros r. reflexivity.
  - apply (reads_bind _ _ [_] (_ :: _) 6%N); [apply reads_num|]. cbn. apply (reads_bind _ _ [_] _ (N.of_nat (List.length l))); [apply reads_num|]. apply reads_map. rewrite Nat2N.id. apply reads_many.
    inversion P as [| | | | |? Pl|]; subst. rewrite Forall_forall in *. intros v I. apply IH; auto. cbn in L. pose proof (part_shorter enc v l I). lia.
  - apply (reads_bind _ _ [_] (_ :: _) 7%N); [apply reads_num|]. cbn. apply (reads_bind _ _ [_] _ (N.of_nat (List.length l))); [apply reads_num|]. apply reads_map. rewrite Nat2N.id. apply (reads_many _ (fun kv => enc_str (fst kv) ++ enc (snd kv))).
    inversion P as [| | | | | |? Nd Pl]; subst. rewrite Forall_forall in *. intros [k v] I. cbn [fst snd]. eapply reads_bind; [apply reads_str|]. apply reads_map. apply IH; [apply (Pl _ I)|]. cbn [enc List.length] in L. pose proof (part_shorter (fun kv => enc_str (fst kv) ++ enc (snd kv)) (k, v) l I) as Q. cbn [fst snd] in Q. rewrite app_length in Q. lia.
Qed.
Theorem example_codec : codec enc example_read.
Proof.
  intros x P. assert (W : dec (List.length (enc x)) (enc x) = Ok (x, [])) by (rewrite <- (app_nil_r (enc x)) at 2; now apply reads_dec). split; [unfold example_read; now rewrite W|].
  intros k L. unfold example_read. destruct (dec (List.length (firstn k (enc x))) (firstn k (enc x))) as [[y r]|e] eqn:E; cbn [bind]; [|eauto]. destruct r as [|n r]; [|eauto]. exfalso.
  assert (Lk : (List.length (firstn k (enc x)) <= List.length (enc x))%nat) by (rewrite firstn_length; lia). apply (stable_dec _ _ Lk _ (skipn k (enc x))) in E. rewrite firstn_skipn, W in E. injection E as _ E. cbn in E. apply (f_equal (@List.length N)) in E. rewrite skipn_length in E. cbn in E. lia.
Qed.
