From Coq Require Import ZifyBool ZifyNat ZifyN.
From Coq Require Import Floats.SpecFloat.
From Verif Require Import PyBase PyBaseFacts IdModel LineModel LineSpec.
Local Open Scope Z_scope.

(** * Float facts *)
Lemma f_add_comm x y : f_add x y = f_add y x.
Proof.
  unfold f_add, SFadd. destruct x as [sx|sx| |sx mx ex], y as [sy|sy| |sy my ey]; try reflexivity;
    try (destruct sx, sy; reflexivity).
  cbv zeta. now rewrite Z.min_comm, Z.add_comm.
Qed.

Definition same_floatb (x y : pyfloat) : bool :=
  match x, y with
  | S754_zero _, S754_zero _ => true
  | S754_infinity s, S754_infinity t => Bool.eqb s t
  | S754_nan, S754_nan => true
  | S754_finite s m e, S754_finite s' m' e' => Bool.eqb s s' && Pos.eqb m m' && Z.eqb e e'
  | _, _ => false
  end.
Lemma same_floatb_ok x y : same_floatb x y = true -> same_float x y.
Proof.
  destruct x, y; cbn [same_floatb]; try discriminate; try constructor.
  - intros H. apply Bool.eqb_prop in H. subst. constructor.
  - intros H. apply andb_prop in H as [H He]. apply andb_prop in H as [Hs Hm].
    apply Bool.eqb_prop in Hs. apply Pos.eqb_eq in Hm. apply Z.eqb_eq in He. subst. constructor.
Qed.

Lemma f_add_zero_l x : same_float (f_add f_zero x) x.
Proof. destruct x as [sx|sx| |sx mx ex]; simpl; try constructor. destruct sx; constructor. Qed.

Lemma f_add_same x y d : same_float x y -> same_float (f_add x d) (f_add y d).
Proof.
  intros [z|s t]; [constructor|]. destruct d as [sx|sx| |sx mx ex]; simpl; try constructor.
  destruct s, t, sx; constructor.
Qed.

Lemma same_float_trans x y z : same_float x y -> same_float y z -> same_float x z.
Proof.
  intros [a|s t] H; [exact H|]. inversion H; subst; constructor.
Qed.
Lemma same_float_sym x y : same_float x y -> same_float y x.
Proof. intros []; constructor. Qed.

Lemma not_truthy_zero x : f_truthy x = false -> same_float x f_zero.
Proof. destruct x; simpl; try discriminate. intros _. constructor. Qed.

Lemma running_same ps : forall x y, same_float x y -> Forall2 same_float (running x ps) (running y ps).
Proof.
  induction ps as [|p ps IH]; intros x y H; simpl; constructor; auto using f_add_same.
Qed.
Lemma running_length ps : forall x, List.length (running x ps) = List.length ps.
Proof. induction ps; intros; simpl; auto. Qed.

(* the position after the parts *)
Definition end_of (x : pyfloat) (ps : list part) : pyfloat := fold_left (fun x p => f_add x (p_dx p)) ps x.

Lemma running_app a : forall b x, running x (a ++ b) = running x a ++ running (end_of x a) b.
Proof. induction a as [|p a IH]; intros b x; simpl; [reflexivity|]. f_equal. apply IH. Qed.
Lemma running_skipn k : forall ps x, skipn k (running x ps) = running (end_of x (firstn k ps)) (skipn k ps).
Proof. induction k as [|k IH]; intros [|p ps] x; simpl; auto. Qed.
Lemma running_firstn k : forall ps x, firstn k (running x ps) = running x (firstn k ps).
Proof. induction k as [|k IH]; intros [|p ps] x; simpl; auto. f_equal; apply IH. Qed.

(** * slice *)

Definition text_of (ps : list part) : pystr := flat_map p_content ps.
Definition text_len (ps : list part) : Z := Z.of_nat (List.length (text_of ps)).

Lemma text_len_app a b : text_len (a ++ b) = text_len a + text_len b.
Proof. unfold text_len, text_of. rewrite flat_map_app, app_length. lia. Qed.
Lemma text_len_cons p b : text_len (p :: b) = Z.of_nat (List.length (p_content p)) + text_len b.
Proof. unfold text_len, text_of. simpl. rewrite app_length. lia. Qed.
Lemma text_len_nil : text_len [] = 0.
Proof. reflexivity. Qed.
Lemma text_len_nonneg a : 0 <= text_len a.
Proof. unfold text_len. lia. Qed.
Lemma text_app a b : text_of (a ++ b) = text_of a ++ text_of b.
Proof. apply flat_map_app. Qed.

Lemma slice_skip_spec ps : forall start x len idx x' len' k,
  slice_skip ps start x len idx = (x', len', k) ->
  exists a b, ps = a ++ b /\ k = (idx + List.length a)%nat /\ x' = end_of x a /\
    len' = len + text_len a /\
    (b <> [] -> start <= len') /\
    (a = [] \/ exists a' p, a = a' ++ [p] /\ len + text_len a' < start).
Proof.
  induction ps as [|p ps IH]; intros start x len idx x' len' k H; cbn [slice_skip] in H.
  - injection H as <- <- <-. exists [], []. rewrite Nat.add_0_r. rewrite ?text_len_nil.
    repeat split; auto; [lia|intros Hx; now destruct Hx].
  - destruct (Z.ltb_spec len start) as [Hlt|Hge].
    + apply IH in H as (a & b & -> & -> & -> & -> & Hb & Ha).
      exists (p :: a), b. cbn [List.length app]. split; [reflexivity|]. split; [lia|]. split; [reflexivity|].
      rewrite text_len_cons. split; [lia|]. split; [intros; specialize (Hb ltac:(assumption)); lia|].
      right. destruct Ha as [->|(a' & q & -> & Ha)].
      * exists [], p. split; [reflexivity|]. rewrite text_len_nil. lia.
      * exists (p :: a'), q. split; [reflexivity|]. rewrite text_len_cons. lia.
    + injection H as <- <- <-. exists [], (p :: ps). rewrite Nat.add_0_r. cbn [app].
      rewrite ?text_len_nil.
      repeat split; auto; lia.
Qed.

Lemma slice_include_spec ps : forall want len idx len' j,
  slice_include ps want len idx = (len', j) ->
  exists a b, ps = a ++ b /\ j = (idx + List.length a)%nat /\ len' = len + text_len a /\
    (b <> [] -> want <= len') /\
    (a = [] \/ exists a' p, a = a' ++ [p] /\ len + text_len a' < want).
Proof.
  induction ps as [|p ps IH]; intros want len idx len' j H; cbn [slice_include] in H.
  - injection H as <- <-. exists [], []. rewrite Nat.add_0_r. rewrite ?text_len_nil.
    repeat split; auto; [lia|intros Hx; now destruct Hx].
  - destruct (Z.ltb_spec len want) as [Hlt|Hge].
    + apply IH in H as (a & b & -> & -> & -> & Hb & Ha).
      exists (p :: a), b. cbn [List.length app]. split; [reflexivity|]. split; [lia|].
      rewrite text_len_cons. split; [lia|]. split; [intros; specialize (Hb ltac:(assumption)); lia|].
      right. destruct Ha as [->|(a' & q & -> & Ha)].
      * exists [], p. split; [reflexivity|]. rewrite text_len_nil. lia.
      * exists (p :: a'), q. split; [reflexivity|]. rewrite text_len_cons. lia.
    + injection H as <- <-. exists [], (p :: ps). rewrite Nat.add_0_r. cbn [app].
      rewrite ?text_len_nil.
      repeat split; auto; lia.
Qed.

Lemma substring_parts (a b c : pystr) :
  substring (a ++ b ++ c) (Z.of_nat (List.length a)) (Z.of_nat (List.length a + List.length b)) = b.
Proof.
  unfold substring. rewrite !Nat2Z.id.
  replace (List.length a + List.length b - List.length a)%nat with (List.length b) by lia.
  rewrite skipn_app, skipn_all, Nat.sub_diag. simpl.
  rewrite firstn_app, firstn_all, Nat.sub_diag, firstn_O, app_nil_r. reflexivity.
Qed.
Lemma substring_empty (s : pystr) a b : b <= a \/ Z.of_nat (List.length s) <= a -> substring s a b = [].
Proof.
  intros H. unfold substring. destruct H as [H|H].
  - replace (Z.to_nat b - Z.to_nat a)%nat with O by lia. reflexivity.
  - rewrite skipn_all2 by lia. apply firstn_nil.
Qed.
Lemma substring_all (s : pystr) : substring s 0 (Z.of_nat (List.length s)) = s.
Proof. unfold substring. rewrite Nat2Z.id. change (Z.to_nat 0) with O. rewrite Nat.sub_0_r. apply firstn_all. Qed.

Lemma slice_nat_mid {A} (a b c : list A) : slice_nat (List.length a) (List.length a + List.length b) (a ++ b ++ c) = b.
Proof.
  unfold slice_nat. rewrite skipn_app, skipn_all, Nat.sub_diag. simpl.
  replace (List.length a + List.length b - List.length a)%nat with (List.length b) by lia.
  rewrite firstn_app, firstn_all, Nat.sub_diag, firstn_O, app_nil_r. reflexivity.
Qed.

Definition the_end (l : line) (e : option Z) : Z :=
  match e with None => Z.of_nat (List.length (l_content l)) | Some e => e end.

Lemma slice_cases l start0 end0 :
  let n := Z.of_nat (List.length (l_content l)) in
  let start := from_end n start0 in
  let end_ := from_end n (the_end l end0) in
  (start = 0 /\ end_ = n /\ l_slice l start0 end0 = Ok l) \/
  (~ (start = 0 /\ end_ = n) /\ end_ <= start /\ l_slice l start0 end0 = Ok EMPTY_LINE) \/
  (start < end_ /\ exists a b, l_parts l = a ++ b /\
     (b = [] /\ start <= text_len a /\ l_slice l start0 end0 = Ok EMPTY_LINE /\
        (a = [] \/ exists a' p, a = a' ++ [p] /\ text_len a' < start)
      \/ b = [] /\ text_len a < start /\ l_slice l start0 end0 = Ok EMPTY_LINE
      \/ b <> [] /\ start < text_len a /\ l_slice l start0 end0 = Err ValueError /\
        (a = [] \/ exists a' p, a = a' ++ [p] /\ text_len a' < start)
      \/ text_len a = start /\ (exists p k c, b = (p :: k) ++ c /\
          text_len (p :: k) = end_ - start /\
          l_slice l start0 end0 = Ok (mk_line
             ((if f_truthy (end_of f_zero a) then mk_part (f_add (p_dx p) (end_of f_zero a)) (p_content p) (p_bold p) else p) :: k)
             (f_add (l_margin_right l) (f_of_Z (20 * Z.of_nat (List.length c))))))
      \/ text_len a = start /\ b <> [] /\ l_slice l start0 end0 = Err ValueError /\
         exists k c, b = k ++ c /\ text_len k <> end_ - start /\ (c <> [] -> end_ - start < text_len k) /\
           (exists k' p, k = k' ++ [p] /\ text_len k' < end_ - start))).
Proof.
  intros n start end_.
  assert (E0 : l_slice l start0 end0 =
    if (start =? 0) && (end_ =? n) then Ok l
    else if end_ <=? start then Ok EMPTY_LINE
    else
    let '(skipped_x, skipped_len, k) := slice_skip (l_parts l) start f_zero 0 O in
    match skipn k (l_parts l) with
    | [] => Ok EMPTY_LINE
    | first_part :: _ =>
        if negb (skipped_len =? start) then Err ValueError
        else
          let '(included_len, j) := slice_include (skipn k (l_parts l)) (end_ - start) 0 k in
          if negb (included_len =? end_ - start) then Err ValueError
          else
            let first' :=
              if f_truthy skipped_x then
                mk_part (f_add (p_dx first_part) skipped_x) (p_content first_part)
                        (p_bold first_part)
              else first_part in
            let margin :=
              f_add (l_margin_right l)
                    (f_of_Z (20 * (Z.of_nat (List.length (l_parts l)) - Z.of_nat j))) in
            Ok (mk_line (first' :: slice_nat (S k) j (l_parts l)) margin)
    end) by reflexivity.
  destruct ((start =? 0) && (end_ =? n)) eqn:E1; [left; split; [lia|split; [lia|exact E0]]|].
  destruct (Z.leb_spec end_ start) as [Hle|Hgt]; [right; left; repeat split; auto; lia|].
  right; right. split; [exact Hgt|].
  destruct (slice_skip _ _ _ _ _) as [[sx sl] k] eqn:Esk.
  apply slice_skip_spec in Esk as (a & b & Eparts & -> & -> & -> & Hb & Ha).
  exists a, b. split; [exact Eparts|]. rewrite Eparts in E0.
  cbn [plus] in E0. rewrite skipn_app, skipn_all, Nat.sub_diag in E0. cbn [app skipn] in E0.
  rewrite Z.add_0_l in *.
  destruct b as [|p b'].
  - destruct (Z.leb_spec start (text_len a)).
    + left. auto.
    + right; left. auto.
  - specialize (Hb ltac:(discriminate)).
    destruct (Z.eqb_spec (text_len a) start) as [Heq|Hne]; cbn [negb] in E0.
    2:{ right; right; left. split; [discriminate|]. split; [lia|]. split; [exact E0|].
        destruct Ha as [Ha|(a' & q & H1 & H2)]; [auto|right; exists a', q; split; [auto|lia]]. }
    destruct (slice_include _ _ _ _) as [il j] eqn:Ein.
    apply slice_include_spec in Ein as (kk & c & Ekc & -> & -> & Hc & Hk).
    rewrite Z.add_0_l in *.
    destruct (Z.eqb_spec (text_len kk) (end_ - start)) as [Heq2|Hne2]; cbn [negb] in E0.
    + right; right; right; left. split; [exact Heq|].
      destruct kk as [|p0 k0]; [rewrite text_len_nil in Heq2; lia|].
      cbn [app] in Ekc. injection Ekc as <- ->. exists p, k0, c. split; [reflexivity|]. split; [exact Heq2|].
      rewrite E0. do 2 f_equal.
      * f_equal. replace (S (List.length a)) with (List.length (a ++ [p])) by (rewrite app_length; simpl; lia).
        replace (a ++ p :: k0 ++ c) with ((a ++ [p]) ++ k0 ++ c) by (rewrite <- app_assoc; reflexivity).
        replace (List.length a + List.length (p :: k0))%nat with (List.length (a ++ [p]) + List.length k0)%nat
          by (rewrite app_length; simpl; lia).
        apply slice_nat_mid.
      * do 3 f_equal. rewrite !app_length. simpl List.length. rewrite app_length. lia.
    + right; right; right; right. split; [exact Heq|]. split; [discriminate|]. split; [exact E0|].
      exists kk, c. split; [exact Ekc|]. split; [exact Hne2|]. split; [intros Hcc; specialize (Hc Hcc); lia|].
      destruct Hk as [->|(k' & q & H1 & H2)]; [|exists k', q; split; [auto|lia]].
      cbn [app] in Ekc. subst c. specialize (Hc ltac:(discriminate)). rewrite text_len_nil in Hc; lia.
Qed.

(* slice never fails otherwise than with ValueError, and when it returns: *)
Lemma slice_error l s e x : l_slice l s e = Err x -> x = ValueError.
Proof.
  intros H. destruct (slice_cases l s e) as [(_ & _ & E)|[(_ & _ & E)|(_ & a & b & _ & C)]]; try congruence.
  destruct C as [(_ & _ & E & _)|[(_ & _ & E)|[(_ & _ & E & _)|[(_ & p & k & c & _ & _ & E)|(_ & _ & E & _)]]]]; congruence.
Qed.

Lemma slice_content l s e r : l_slice l s e = Ok r ->
  let n := Z.of_nat (List.length (l_content l)) in
  l_content r = substring (l_content l) (from_end n s) (from_end n (the_end l e))
  \/ (r = EMPTY_LINE /\ exists before last, l_parts l = before ++ [last] /\
      text_len before < from_end n s < n).
Proof.
  intros H n. pose proof (slice_cases l s e) as SC. cbv zeta in SC. fold n in SC.
  destruct SC as [(Es & Ee & E)|[(_ & Hle & E)|(Hlt & a & b & Ep & C)]].
  - rewrite Es, Ee. assert (r = l) by congruence. subst r. left. symmetry. apply substring_all.
  - assert (r = EMPTY_LINE) by congruence. subst r. left. rewrite substring_empty; [reflexivity|auto].
  - assert (En : n = text_len a + text_len b).
    { unfold n, l_content. rewrite Ep, <- text_len_app. reflexivity. }
    destruct C as [(-> & Hs & E & Ha)|[(-> & Hs & E)|[(_ & _ & E & _)|[(Hs & p & k & c & -> & Hl & E)|(_ & _ & E & _)]]]];
      try congruence.
    + assert (r = EMPTY_LINE) by congruence. subst r. change (text_len []) with 0 in En.
      destruct (Z.eq_dec (from_end n s) n) as [Hn|Hn].
      * left. rewrite substring_empty; [reflexivity|]. right. lia.
      * destruct Ha as [->|(a' & p & -> & Ha)].
        -- left. unfold l_content at 2. rewrite Ep. unfold substring. cbn [app flat_map].
           rewrite skipn_nil, firstn_nil. reflexivity.
        -- right. split; [reflexivity|]. exists a', p. rewrite app_nil_r in Ep. split; [exact Ep|lia].
    + assert (r = EMPTY_LINE) by congruence. subst r. change (text_len []) with 0 in En.
      left. rewrite substring_empty; [reflexivity|]. right. lia.
    + left. rewrite E in H. injection H as <-.
      assert (Et : l_content l = text_of a ++ text_of (p :: k) ++ text_of c).
      { unfold l_content. fold (text_of (l_parts l)). rewrite Ep, !text_app. reflexivity. }
      rewrite Et. rewrite <- Hs.
      replace (from_end n (the_end l e)) with
        (Z.of_nat (List.length (text_of a) + List.length (text_of (p :: k)))) by (unfold text_len in *; lia).
      unfold text_len. rewrite substring_parts. unfold l_content, text_of. cbn [l_parts flat_map].
      destruct (f_truthy _); reflexivity.
Qed.

Lemma Forall2_refl {A} (R : A -> A -> Prop) : (forall x, R x x) -> forall l, Forall2 R l l.
Proof. intros HR l. induction l; constructor; auto. Qed.

Lemma slice_positions l s e r : l_slice l s e = Ok r -> r <> EMPTY_LINE ->
  exists before kept after,
    l_parts l = before ++ kept ++ after /\
    map p_content (l_parts r) = map p_content kept /\
    map p_bold (l_parts r) = map p_bold kept /\
    List.length (text_of before) = Z.to_nat (from_end (Z.of_nat (List.length (l_content l))) s) /\
    Forall2 same_float (positions r)
      (firstn (List.length kept) (skipn (List.length before) (positions l))).
Proof.
  intros H Hne. destruct (slice_cases l s e) as [(Es & Ee & E)|[(_ & Hle & E)|(Hlt & a & b & Ep & C)]].
  - assert (r = l) by congruence. subst r. exists [], (l_parts l), [].
    rewrite app_nil_r. rewrite Es. repeat split; auto. cbn [List.length skipn].
    unfold positions. rewrite <- (running_length (l_parts l) f_zero), firstn_all.
    apply Forall2_refl. constructor.
  - congruence.
  - destruct C as [(-> & Hs & E & Ha)|[(-> & Hs & E)|[(_ & _ & E & _)|[(Hs & p & k & c & -> & Hl & E)|(_ & _ & E & _)]]]];
      try congruence.
    rewrite E in H. injection H as <-. exists a, (p :: k), c.
    split; [exact Ep|]. cbn [l_parts map].
    split; [f_equal; destruct (f_truthy _); reflexivity|].
    split; [f_equal; destruct (f_truthy _); reflexivity|].
    split; [unfold text_len in Hs; lia|].
    unfold positions. rewrite Ep. cbn [l_parts].
    rewrite running_app. rewrite <- (running_length a f_zero) at 1.
    rewrite skipn_app, skipn_all, Nat.sub_diag. cbn [app skipn].
    change (p :: k ++ c) with ((p :: k) ++ c). rewrite running_app.
    rewrite <- (running_length (p :: k) (end_of f_zero a)) at 1.
    rewrite firstn_app, firstn_all, Nat.sub_diag, firstn_O, app_nil_r.
    cbn [running]. destruct (f_truthy (end_of f_zero a)) eqn:Et; cbn [p_dx].
    + assert (S1 : same_float (f_add f_zero (f_add (p_dx p) (end_of f_zero a))) (f_add (end_of f_zero a) (p_dx p))).
      { eapply same_float_trans; [apply f_add_zero_l|]. rewrite f_add_comm. constructor. }
      constructor; [exact S1|]. now apply running_same.
    + assert (S1 : same_float (f_add f_zero (p_dx p)) (f_add (end_of f_zero a) (p_dx p))).
      { apply f_add_same. apply same_float_sym, not_truthy_zero, Et. }
      constructor; [exact S1|]. now apply running_same.
Qed.

(* With one-character parts every cut between 0 and the length succeeds. *)
Definition char_parts (l : line) : Prop := Forall (fun p => List.length (p_content p) = 1%nat) (l_parts l).

Lemma char_text_len ps : Forall (fun p => List.length (p_content p) = 1%nat) ps ->
  text_len ps = Z.of_nat (List.length ps).
Proof.
  induction 1; [reflexivity|]. rewrite text_len_cons, IHForall, H. simpl List.length. lia.
Qed.

Lemma slice_char_ok l s e :
  char_parts l ->
  let n := Z.of_nat (List.length (l_content l)) in
  0 <= from_end n s -> from_end n (the_end l e) <= n ->
  exists r, l_slice l s e = Ok r /\ char_parts r /\
    l_content r = substring (l_content l) (from_end n s) (from_end n (the_end l e)).
Proof.
  intros Hc n Hs0 Hen.
  assert (Hok : exists r, l_slice l s e = Ok r /\ char_parts r).
  { pose proof (slice_cases l s e) as SC. cbv zeta in SC. fold n in SC.
  destruct SC as [(Es & Ee & E)|[(_ & Hle & E)|(Hlt & a & b & Ep & C)]].
    - eauto.
    - exists EMPTY_LINE. split; [exact E|constructor].
    - unfold char_parts in Hc. rewrite Ep in Hc. apply Forall_app in Hc as [Hca Hcb].
      assert (En : n = text_len a + text_len b).
      { unfold n, l_content. rewrite Ep, <- text_len_app. reflexivity. }
      destruct C as [(-> & Hs & E & Ha)|[(-> & Hs & E)|[(Hb & Hs & E & Ha)|[(Hs & p & k & c & -> & Hl & E)|(Hs & Hb & E & k & c & -> & Hk & Hkc & k' & p & -> & Hk')]]]].
      + exists EMPTY_LINE. split; [exact E|constructor].
      + exists EMPTY_LINE. split; [exact E|constructor].
      + exfalso. destruct Ha as [->|(a' & p & -> & Ha)]; [rewrite text_len_nil in Hs; lia|].
        apply Forall_app in Hca as [_ Hcp]. inversion Hcp; subst.
        rewrite text_len_app, text_len_cons in Hs. change (text_len []) with 0 in Hs. lia.
      + eexists. split; [exact E|]. unfold char_parts. cbn [l_parts].
        apply Forall_app in Hcb as [Hcb _]. inversion Hcb; subst.
        constructor; [|assumption]. destruct (f_truthy _); assumption.
      + exfalso. rewrite text_len_app in En. destruct c as [|q c].
        * change (text_len []) with 0 in En.
          rewrite text_len_app, text_len_cons in *. change (text_len []) with 0 in *.
          apply Forall_app in Hcb as [Hcb _]. apply Forall_app in Hcb as [_ Hcb]. inversion Hcb; subst. lia.
        * specialize (Hkc ltac:(discriminate)). rewrite text_len_app, text_len_cons in Hkc.
          change (text_len []) with 0 in Hkc.
          apply Forall_app in Hcb as [Hcb _]. apply Forall_app in Hcb as [_ Hcb]. inversion Hcb; subst. lia. }
  destruct Hok as (r & E & Hr). exists r. split; [exact E|]. split; [exact Hr|].
  destruct (slice_content l s e r E) as [H|(-> & a & p & Ep & Hp)]; [exact H|].
  exfalso. fold n in Hp. unfold char_parts in Hc. rewrite Ep in Hc. apply Forall_app in Hc as [_ Hcp]. inversion Hcp; subst.
  assert (n = text_len a + 1); [|lia].
  unfold n, l_content. rewrite Ep. fold (text_of (a ++ [p])). fold (text_len (a ++ [p])).
  rewrite text_len_app, text_len_cons. change (text_len []) with 0. lia.
Qed.

(** * from_multiple *)

Lemma from_multiple_parts_false ps : forall x,
  from_multiple_parts false ps x = (ps, end_of x ps).
Proof.
  induction ps as [|p ps IH]; intros x; [reflexivity|]. cbn [from_multiple_parts]. now rewrite IH.
Qed.

(* what from_multiple makes of one line that starts after position x *)
Definition shifted (x : pyfloat) (ps : list part) : list part :=
  match ps with
  | [] => []
  | p :: t => mk_part (f_sub (p_dx p) x) (p_content p) false :: t
  end.
(* the position where the writing stands after a line; the first part is absolute *)
Definition after_line (x : pyfloat) (ps : list part) : pyfloat :=
  match ps with [] => x | p :: t => end_of (p_dx p) t end.

Lemma from_multiple_parts_true ps x :
  from_multiple_parts true ps x = (shifted x ps, after_line x ps).
Proof.
  destruct ps as [|p ps]; [reflexivity|]. cbn [from_multiple_parts]. now rewrite from_multiple_parts_false.
Qed.

Lemma shifted_text x ps : text_of (shifted x ps) = text_of ps.
Proof. destruct ps; reflexivity. Qed.

Lemma from_multiple_loop_text ls : forall x, text_of (from_multiple_loop ls x) = flat_map l_content ls.
Proof.
  induction ls as [|l ls IH]; intros x; [reflexivity|]. cbn [from_multiple_loop flat_map].
  rewrite from_multiple_parts_true, text_app, shifted_text, IH. reflexivity.
Qed.

Lemma from_multiple_content ls : l_content (l_from_multiple ls) = flat_map l_content ls.
Proof. apply from_multiple_loop_text. Qed.

(* positions survive when the subtraction can be undone *)
Fixpoint undoable (x : pyfloat) (ls : list line) : Prop :=
  match ls with
  | [] => True
  | l :: t =>
      match l_parts l with
      | [] => undoable x t
      | p :: _ => same_float (f_add x (f_sub (p_dx p) x)) (p_dx p) /\ undoable (after_line x (l_parts l)) t
      end
  end.

Lemma end_of_same ps : forall x y, same_float x y -> same_float (end_of x ps) (end_of y ps).
Proof. induction ps as [|p ps IH]; intros x y H; simpl; auto using f_add_same. Qed.

Lemma same_undo x y p : same_float x y -> same_float (f_add y (f_sub p y)) p -> same_float (f_add x (f_sub p y)) p.
Proof. intros H1 H2. eapply same_float_trans; [|exact H2]. now apply f_add_same. Qed.

Lemma from_multiple_positions_gen ls : forall x y, same_float x y -> undoable y ls ->
  Forall2 same_float (running x (from_multiple_loop ls y)) (flat_map positions ls).
Proof.
  induction ls as [|l ls IH]; intros x y Hxy Hu; cbn [from_multiple_loop flat_map]; [constructor|].
  rewrite from_multiple_parts_true, running_app. cbn [undoable] in Hu. unfold positions at 1.
  destruct (l_parts l) as [|p ps] eqn:Ep.
  - cbn. apply IH; auto.
  - destruct Hu as [Hp Hu]. cbn [shifted running end_of fold_left p_dx after_line app] in *.
    pose proof (same_undo x y (p_dx p) Hxy Hp) as S1.
    assert (S2 : same_float (f_add x (f_sub (p_dx p) y)) (f_add f_zero (p_dx p))).
    { eapply same_float_trans; [exact S1|]. apply same_float_sym, f_add_zero_l. }
    constructor; [exact S2|].
    apply Forall2_app; [now apply running_same|].
    apply IH; [|exact Hu]. now apply end_of_same.
Qed.

Lemma from_multiple_positions ls : undoable f_zero ls ->
  Forall2 same_float (positions (l_from_multiple ls)) (flat_map positions ls).
Proof. apply from_multiple_positions_gen. constructor. Qed.

Lemma f_sub_same d x y : same_float x y -> same_float (f_sub d x) (f_sub d y).
Proof.
  intros [z|s t]; [constructor|]. destruct d as [sx|sx| |sx mx ex]; simpl; try constructor.
  destruct s, t, sx; constructor.
Qed.
Lemma f_add_same2 x y a b : same_float x y -> same_float a b -> same_float (f_add x a) (f_add y b).
Proof.
  intros H1 H2. eapply same_float_trans; [apply f_add_same, H1|].
  rewrite (f_add_comm y a), (f_add_comm y b). now apply f_add_same.
Qed.

Lemma running_last_same ps : forall x y, same_float x y -> ps <> [] ->
  exists z, In z (running x ps) /\ same_float z (end_of y ps).
Proof.
  induction ps as [|p ps IH]; intros x y H Hne; [congruence|].
  cbn [running end_of fold_left]. destruct ps as [|q ps'].
  - exists (f_add x (p_dx p)). split; [now left|]. now apply f_add_same.
  - destruct (IH (f_add x (p_dx p)) (f_add y (p_dx p))) as (z & Hz & Hs); [now apply f_add_same|discriminate|].
    exists z. split; [now right|exact Hs].
Qed.

Lemma undoable_all_gen ls (Q : pyfloat -> Prop) : forall x,
  (exists x', Q x' /\ same_float x' x) ->
  (forall x, In x (flat_map positions ls) -> Q x) ->
  (forall x y, Q x -> In y (map l_indent ls) -> same_float (f_add x (f_sub y x)) y) ->
  undoable x ls.
Proof.
  induction ls as [|l ls IH]; intros x (x' & Hq & Hs) HQ H; cbn [undoable]; [exact I|].
  destruct (l_parts l) as [|p ps] eqn:Ep.
  - apply IH; [eauto| |].
    + intros z Hz. apply HQ. cbn [flat_map]. apply in_or_app. now right.
    + intros a b Ha Hb. apply H; [exact Ha|]. now right.
  - split.
    + eapply same_float_trans; [|apply (H x' (p_dx p) Hq); left; unfold l_indent; now rewrite Ep].
      apply same_float_sym. apply f_add_same2; [exact Hs|]. now apply f_sub_same.
    + apply IH.
      * destruct (running_last_same (p :: ps) f_zero f_zero) as (z & Hz & Hzs); [constructor|discriminate|].
        exists z. split.
        -- apply HQ. cbn [flat_map]. apply in_or_app. left. unfold positions. now rewrite Ep.
        -- eapply same_float_trans; [exact Hzs|]. cbn [after_line end_of fold_left].
           apply end_of_same. apply f_add_zero_l.
      * intros z Hz. apply HQ. cbn [flat_map]. apply in_or_app. now right.
      * intros a b Ha Hb. apply H; [exact Ha|]. now right.
Qed.

Lemma undoable_all ls :
  (forall x y, In x (flat_map positions ls) \/ x = f_zero -> In y (map l_indent ls) ->
     same_float (f_add x (f_sub y x)) y) -> undoable f_zero ls.
Proof.
  intros H. apply (undoable_all_gen ls (fun x => In x (flat_map positions ls) \/ x = f_zero)); auto.
  exists f_zero. split; [now right|constructor].
Qed.

(* shape of the parts *)
Fixpoint shifted_lines (x : pyfloat) (ls : list line) : list (list part) :=
  match ls with
  | [] => []
  | l :: t => shifted x (l_parts l) :: shifted_lines (after_line x (l_parts l)) t
  end.
Lemma from_multiple_shape ls : forall x, from_multiple_loop ls x = concat (shifted_lines x ls).
Proof.
  induction ls as [|l ls IH]; intros x; [reflexivity|]. cbn [from_multiple_loop shifted_lines concat].
  now rewrite from_multiple_parts_true, IH.
Qed.

Definition unbold_first (bs : list bool) : list bool := match bs with [] => [] | _ :: t => false :: t end.
Lemma from_multiple_bold ls :
  map p_bold (l_parts (l_from_multiple ls)) = flat_map (fun l => unbold_first (map p_bold (l_parts l))) ls.
Proof.
  unfold l_from_multiple. cbn [l_parts]. generalize f_zero.
  induction ls as [|l ls IH]; intros x; [reflexivity|]. cbn [from_multiple_loop flat_map].
  rewrite from_multiple_parts_true, map_app, IH. f_equal. destruct (l_parts l); reflexivity.
Qed.

(** * Quotes *)

Lemma count_chr_occ c s : count_chr c s = count_occ N.eq_dec s c.
Proof.
  unfold count_chr. induction s as [|x s IH]; [reflexivity|]. cbn [List.filter count_occ].
  destruct (N.eq_dec x c) as [->|H].
  - rewrite N.eqb_refl. cbn [List.length]. now rewrite IH.
  - replace (c =? x)%N with false by lia. exact IH.
Qed.

Lemma quote_level_diff_spec s : quote_level_diff s = opening s - closing s.
Proof. unfold quote_level_diff, opening, closing. now rewrite !count_chr_occ. Qed.

Lemma opening_app a b : opening (a ++ b) = opening a + opening b.
Proof. unfold opening. rewrite !count_occ_app. lia. Qed.
Lemma closing_app a b : closing (a ++ b) = closing a + closing b.
Proof. unfold closing. rewrite !count_occ_app. lia. Qed.

Lemma open_after_cons l ls : open_after (l :: ls) = quote_level_diff (l_content l) + open_after ls.
Proof.
  unfold open_after, whole_text. cbn [flat_map]. rewrite opening_app, closing_app, quote_level_diff_spec. lia.
Qed.

Lemma quote_loop_items throw ls : forall q i q' l,
  nth_error (g_items (quote_level_loop throw q ls)) i = Some (q', l) ->
  nth_error ls i = Some l /\ q' = q + open_after (firstn i ls).
Proof.
  induction ls as [|x ls IH]; intros q i q' l H; cbn [quote_level_loop] in H.
  - destruct i; discriminate.
  - assert (Z0 : open_after [] = 0) by reflexivity.
    destruct (throw && _).
    + destruct i as [|i]; cbn in H; [|destruct i; discriminate]. injection H as <- <-.
      split; [reflexivity|]. cbn [firstn]. lia.
    + destruct i as [|i]; cbn in H.
      * injection H as <- <-. split; [reflexivity|]. cbn [firstn]. lia.
      * apply IH in H as [H1 H2]. split; [exact H1|]. cbn [firstn]. rewrite open_after_cons. lia.
Qed.

Lemma quote_loop_nothrow ls : forall q,
  List.length (g_items (quote_level_loop false q ls)) = List.length ls /\
  g_end (quote_level_loop false q ls) = None.
Proof.
  induction ls as [|x ls IH]; intros q; [split; reflexivity|]. cbn [quote_level_loop andb].
  destruct (IH (q + quote_level_diff (l_content x))) as [H1 H2]. cbn. split; [now rewrite H1|exact H2].
Qed.

Lemma quote_loop_throw ls : forall q,
  let g := quote_level_loop true q ls in
  ((forall i, (0 < i <= List.length ls)%nat -> 0 <= q + open_after (firstn i ls)) ->
     List.length (g_items g) = List.length ls /\
     g_end g = if q + open_after ls =? 0 then None else Some ValueError) /\
  (forall i, (0 < i <= List.length ls)%nat -> q + open_after (firstn i ls) < 0 ->
     (forall j, (0 < j < i)%nat -> 0 <= q + open_after (firstn j ls)) ->
     List.length (g_items g) = i /\ g_end g = Some ValueError).
Proof.
  induction ls as [|x ls IH]; intros q.
  - cbn. split; [|intros; lia]. intros _. change (open_after []) with 0. rewrite Z.add_0_r.
    split; [reflexivity|]. destruct (q =? 0); reflexivity.
  - cbv zeta. cbn [quote_level_loop andb].
    set (q' := q + quote_level_diff (l_content x)).
    assert (F : forall i, q + open_after (firstn (S i) (x :: ls)) = q' + open_after (firstn i ls)).
    { intros i. cbn [firstn]. rewrite open_after_cons. unfold q'. lia. }
    assert (Fall : q + open_after (x :: ls) = q' + open_after ls) by (rewrite open_after_cons; unfold q'; lia).
    specialize (IH q'). cbv zeta in IH. destruct IH as [IH1 IH2].
    destruct (Z.ltb_spec q' 0) as [Hneg|Hpos].
    + split.
      * intros H. specialize (H 1%nat ltac:(cbn; lia)). rewrite (F 0%nat) in H. cbn [firstn] in H.
        change (open_after []) with 0 in H. lia.
      * intros i Hi Hlt Hfirst. destruct i as [|[|i]]; [lia|split; reflexivity|].
        specialize (Hfirst 1%nat ltac:(lia)). rewrite (F 0%nat) in Hfirst. cbn [firstn] in Hfirst.
        change (open_after []) with 0 in Hfirst. lia.
    + cbn [g_items g_end List.length]. split.
      * intros H. rewrite Fall. destruct IH1 as [H1 H2].
        { intros i Hi. specialize (H (S i) ltac:(cbn; lia)). now rewrite F in H. }
        rewrite H1. auto.
      * intros i Hi Hlt Hfirst. destruct i as [|i]; [lia|]. rewrite F in Hlt.
        destruct i as [|i].
        { cbn [firstn] in Hlt. change (open_after []) with 0 in Hlt. lia. }
        destruct (IH2 (S i)) as [H1 H2]; [cbn in Hi; lia|exact Hlt| |rewrite H1; auto].
        intros j Hj. specialize (Hfirst (S j) ltac:(lia)). now rewrite F in Hfirst.
Qed.

Lemma least_neg (f : nat -> Z) n :
  (forall i, (0 < i <= n)%nat -> 0 <= f i) \/
  (exists i, (0 < i <= n)%nat /\ f i < 0 /\ forall j, (0 < j < i)%nat -> 0 <= f j).
Proof.
  induction n as [|n IH]; [left; intros; lia|].
  destruct IH as [IH|(i & Hi & H1 & H2)].
  - destruct (Z_lt_dec (f (S n)) 0) as [H|H].
    + right. exists (S n). split; [lia|]. split; [exact H|]. intros j Hj. apply IH. lia.
    + left. intros i Hi. destruct (Nat.eq_dec i (S n)) as [->|]; [lia|]. apply IH. lia.
  - right. exists i. split; [lia|]. auto.
Qed.

Lemma quote_levels throw ls i q l :
  nth_error (g_items (iterate_with_quote_level throw ls)) i = Some (q, l) ->
  nth_error ls i = Some l /\ q = open_after (firstn i ls).
Proof. intros H. apply quote_loop_items in H as [H1 H2]. split; [exact H1|lia]. Qed.

Lemma quote_ok_iff ls :
  g_end (iterate_with_quote_level true ls) = None <->
  open_after ls = 0 /\ forall i, (i <= List.length ls)%nat -> 0 <= open_after (firstn i ls).
Proof.
  destruct (quote_loop_throw ls 0) as [H1 H2]. fold (iterate_with_quote_level true ls) in *. cbv zeta in *.
  destruct (least_neg (fun i => open_after (firstn i ls)) (List.length ls)) as [H|(i & Hi & Hneg & Hfirst)].
  - destruct H1 as [_ ->]; [intros i Hi; specialize (H i Hi); cbv beta in H; lia|]. rewrite Z.add_0_l.
    destruct (Z.eqb_spec (open_after ls) 0) as [E|E].
    + split; [|reflexivity]. intros _. split; [exact E|]. intros i Hi.
      destruct i; [change (open_after (firstn 0 ls)) with 0; lia|]. apply H. lia.
    + split; [discriminate|]. intros [? _]. contradiction.
  - destruct (H2 i Hi) as [_ ->]; [lia|intros j Hj; specialize (Hfirst j Hj); cbv beta in Hfirst; lia|].
    split; [discriminate|]. intros [_ H]. specialize (H i ltac:(lia)). lia.
Qed.

Lemma quote_fail ls e : g_end (iterate_with_quote_level true ls) = Some e -> e = ValueError.
Proof.
  destruct (quote_loop_throw ls 0) as [H1 H2]. fold (iterate_with_quote_level true ls) in *. cbv zeta in *.
  destruct (least_neg (fun i => open_after (firstn i ls)) (List.length ls)) as [H|(i & Hi & Hneg & Hfirst)].
  - destruct H1 as [_ ->]; [intros i Hi; specialize (H i Hi); cbv beta in H; lia|].
    destruct (_ =? _); congruence.
  - destruct (H2 i Hi) as [_ ->]; [lia|intros j Hj; specialize (Hfirst j Hj); cbv beta in Hfirst; lia|congruence].
Qed.

Lemma quote_yield_count ls :
  let n := List.length (g_items (iterate_with_quote_level true ls)) in
  n = List.length ls \/
  ((0 < n <= List.length ls)%nat /\ open_after (firstn n ls) < 0 /\
   g_end (iterate_with_quote_level true ls) = Some ValueError).
Proof.
  destruct (quote_loop_throw ls 0) as [H1 H2]. fold (iterate_with_quote_level true ls) in *. cbv zeta in *.
  destruct (least_neg (fun i => open_after (firstn i ls)) (List.length ls)) as [H|(i & Hi & Hneg & Hfirst)].
  - left. apply H1. intros i Hi; specialize (H i Hi); cbv beta in H; lia.
  - right. destruct (H2 i Hi) as [-> ->]; [lia|intros j Hj; specialize (Hfirst j Hj); cbv beta in Hfirst; lia|]. auto.
Qed.

(** * join, flatten, split *)

Lemma join_step_joined ls t s : joined ls t -> joined (ls ++ [s]) (join_step t s).
Proof.
  intros H. unfold join_step. destruct (rev t) as [|c r] eqn:E.
  - assert (t = []) by (rewrite <- (rev_involutive t), E; reflexivity). subst t. cbn [app].
    eapply joined_first; eauto.
  - assert (Et : t = rev r ++ [c]) by (rewrite <- (rev_involutive t), E; reflexivity). subst t.
    destruct (N.eqb_spec c 45) as [->|Hc].
    + apply joined_hyphen. exact H.
    + rewrite <- app_assoc. cbn [app]. apply joined_space; auto.
Qed.

Lemma join_joined ls : joined ls (join_line_strs ls).
Proof.
  unfold join_line_strs. induction ls as [|s ls IH] using rev_ind; [constructor|].
  rewrite fold_left_app. cbn [fold_left]. apply join_step_joined, IH.
Qed.

Lemma joined_nonspace ls t : joined ls t ->
  List.filter (fun c => negb (c =? 32)%N) t = flat_map (List.filter (fun c => negb (c =? 32)%N)) ls.
Proof.
  induction 1 as [|ls t s H IH Ht|ls t s H IH|ls t c s H IH Hc]; rewrite ?flat_map_app; cbn [flat_map];
    rewrite ?app_nil_r; try rewrite <- IH.
  - reflexivity.
  - subst t. reflexivity.
  - rewrite filter_app. reflexivity.
  - rewrite filter_app. reflexivity.
Qed.

Lemma joined_length ls t : joined ls t ->
  (List.length (concat ls) <= List.length t <= List.length (concat ls) + (List.length ls - 1))%nat.
Proof.
  assert (E : forall (ls : list pystr) (s : pystr), concat (ls ++ [s]) = concat ls ++ s).
  { intros l0 s. rewrite concat_app. cbn. now rewrite app_nil_r. }
  induction 1 as [|ls t s H IH Ht|ls t s H IH|ls t c s H IH Hc]; [cbn; lia| | |];
    rewrite E; rewrite !app_length in *; cbn [List.length] in *.
  - subst t. cbn in IH. lia.
  - lia.
  - destruct ls as [|x ls]; [cbn in IH; lia|]. cbn [List.length] in *. lia.
Qed.

Lemma nested_ind2 {A} (P : nested A -> Prop) :
  (forall a, P (Leaf a)) -> (forall l, Forall P l -> P (Node l)) -> forall n, P n.
Proof.
  intros HL HN. fix IH 1. intros [a|l]; [apply HL|]. apply HN.
  induction l; constructor; auto.
Qed.

Definition sizes {A} (l : list (nested A)) : nat := fold_right (fun x acc => nested_size x + acc)%nat O l.

Lemma sizes_app {A} (a b : list (nested A)) : sizes (a ++ b) = (sizes a + sizes b)%nat.
Proof. unfold sizes. induction a; cbn [app fold_right]; lia. Qed.

Lemma sizes_leaf {A} (a : A) t : sizes (Leaf a :: t) = S (sizes t).
Proof. reflexivity. Qed.
Lemma sizes_node {A} (k : list (nested A)) t : sizes (Node k :: t) = S (sizes k + sizes t).
Proof. reflexivity. Qed.

Lemma flatten_loop_spec {A} fuel : forall (l : list (nested A)), (sizes l <= fuel)%nat ->
  flatten_loop fuel l = Some (flat_map leaves l).
Proof.
  induction fuel as [|fuel IH]; intros l Hf.
  - destruct l as [|[a|k] t]; [reflexivity|rewrite sizes_leaf in Hf; lia|rewrite sizes_node in Hf; lia].
  - destruct l as [|[a|k] t]; cbn [flatten_loop flat_map leaves]; [reflexivity| |].
    + rewrite sizes_leaf in Hf. rewrite IH by lia. reflexivity.
    + rewrite sizes_node in Hf. rewrite IH by (rewrite sizes_app; lia).
      now rewrite flat_map_app.
Qed.

Lemma flatten_spec {A} (l : list (nested A)) : flatten l = Ok (flat_map leaves l).
Proof.
  unfold flatten. rewrite flatten_loop_spec; [reflexivity|].
  change (nested_size (Node l)) with (S (sizes l)). lia.
Qed.

Lemma split_list_loop_spec {A} (eqb : A -> A -> bool) needle hs : forall r,
  (r <> [] -> True) ->
  concat (split_list_loop eqb hs needle r) = r ++ hs.
Proof.
  induction hs as [|e hs IH]; intros r _; cbn [split_list_loop].
  - destruct r; cbn; rewrite ?app_nil_r; reflexivity.
  - destruct (eqb e needle).
    + destruct r as [|x r]; cbn [concat]; rewrite IH by auto; reflexivity.
    + rewrite IH by auto. rewrite <- app_assoc. reflexivity.
Qed.

Lemma split_list_loop_pieces {A} (eqb : A -> A -> bool) needle hs : forall r,
  Forall (fun e => eqb e needle = false) (tl r) ->
  Forall (fun p => p <> [] /\ Forall (fun e => eqb e needle = false) (tl p)) (split_list_loop eqb hs needle r).
Proof.
  induction hs as [|e hs IH]; intros r Hr; cbn [split_list_loop].
  - destruct r; constructor; auto. split; [discriminate|assumption].
  - destruct (eqb e needle) eqn:E.
    + destruct r as [|x r]; [apply IH; constructor|]. constructor; [split; [discriminate|assumption]|].
      apply IH. constructor.
    + apply IH. destruct r as [|x r]; cbn [tl app]; [constructor|]. apply Forall_app. auto.
Qed.

(* every piece but the first starts with the needle *)
Lemma split_list_loop_heads {A} (eqb : A -> A -> bool) needle hs : forall r,
  Forall (fun p => exists e t, p = e :: t /\ eqb e needle = true) (tl (split_list_loop eqb hs needle r)) /\
  (forall e t, r = e :: t -> exists t', hd [] (split_list_loop eqb hs needle r) = e :: t').
Proof.
  induction hs as [|e hs IH]; intros r; cbn [split_list_loop].
  - destruct r; split; try constructor; intros e t [= -> ->]. cbn. eauto.
  - destruct (eqb e needle) eqn:E.
    + destruct r as [|x r]; [destruct (IH [e]) as [H1 H2]; split; [exact H1|intros; discriminate]|].
      cbn [tl hd]. destruct (IH [e]) as [H1 H2]. split; [|intros ? ? [= -> ->]; eauto].
      destruct (H2 e [] eq_refl) as [t' Ht'].
      destruct (split_list_loop eqb hs needle [e]) as [|p ps]; [discriminate|]. cbn in *. subst p.
      constructor; eauto.
    + destruct (IH (r ++ [e])) as [H1 H2]. split; [exact H1|]. intros x t ->. eapply H2. reflexivity.
Qed.
