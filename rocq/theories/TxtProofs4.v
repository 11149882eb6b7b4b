From Coq Require Import Lia.
From Verif Require Import PyBase PyBaseFacts StructModel GazModel HtmlModel HtmlSpec HtmlProofs HtmlProofs2 HtmlProofs3 TxtModel TxtSpec TxtSpec2 TxtProofs.

Lemma piece_blank width c : piece width c -> blank c = false.
Proof.
  intros (N & F & _). destruct (blank c) eqn:B; [|reflexivity]. apply blank_spaces in B. exfalso. destruct c as [|x c]; [contradiction|]. inversion F as [|y z Fx _]; subst. unfold no_space in B. cbn [List.filter] in B. rewrite Fx in B. discriminate.
Qed.
Lemma pieces_first width l : pieces width l -> exists c t, l = c :: t /\ piece width c.
Proof. intros H. inversion H; subst; eauto. Qed.
Lemma pieces_last width l : pieces width l -> drop_blank_last l = l /\ drop_blank_last (l ++ [space]) = l.
Proof.
  assert (D : forall c t, t <> [] -> drop_blank_last (c :: t) = c :: drop_blank_last t) by (intros c [|d t] H; [contradiction|reflexivity]).
  assert (N : forall l, pieces width l -> l <> []) by (intros l' H; inversion H; discriminate).
  induction 1 as [c P|c t P Pt [IH1 IH2]|c t P Pt [IH1 IH2]].
  - cbn. rewrite (piece_blank _ _ P). split; reflexivity.
  - cbn [app]. rewrite !D, IH1 by (try discriminate; exact (N _ Pt)). rewrite !D, IH2 by (try discriminate; destruct t; discriminate). split; reflexivity.
  - cbn [app]. rewrite !D, IH1 by exact (N _ Pt). rewrite D, IH2 by (destruct t; discriminate). split; reflexivity.
Qed.
Lemma take_pieces width l : pieces width l -> forall room a b, take_chunks room l = (a, b) -> (List.length (first_piece l) <= room)%nat ->
  exists c, pieces width c /\ (List.length (concat c) <= room)%nat /\
    ((a = c /\ b = [] /\ l = c) \/
     (exists d, pieces width d /\ ((a = c ++ [space] /\ b = d) \/ (a = c /\ b = space :: d)) /\ l = c ++ space :: d /\ (room < List.length (concat c) + 1 + List.length (first_piece d))%nat) \/
     (exists d, pieces width d /\ a = c /\ b = d /\ l = c ++ d /\ (room < List.length (concat c) + List.length (first_piece d))%nat)).
Proof.
  induction 1 as [c P|c t P Pt IH|c t P Pt IH]; intros room a b E F; cbn [first_piece hd] in F; cbn [take_chunks] in E; destruct (Nat.leb_spec (List.length c) room) as [Fc|Fc]; try lia.
  - injection E as <- <-. exists [c]. split; [now constructor|]. cbn [concat]. rewrite app_nil_r. split; [exact F|]. left. auto.
  - change (List.length space) with 1%nat in E. destruct (Nat.leb_spec 1 (room - List.length c)) as [Fs|Fs].
    + destruct (take_chunks (room - List.length c - 1) t) as [a' b'] eqn:T. injection E as <- <-.
      destruct (Nat.leb_spec (List.length (first_piece t)) (room - List.length c - 1)) as [Ft|Ft].
      * destruct (IH _ _ _ T Ft) as (c' & P' & L & H). exists (c :: space :: c'). split; [now constructor|]. split; [cbn [concat]; rewrite !app_length; change (List.length space) with 1%nat; lia|].
        destruct H as [(-> & -> & ->)|[(d & Pd & H & -> & G)|(d & Pd & -> & -> & -> & G)]].
        -- left. auto.
        -- right. left. exists d. split; [exact Pd|]. split; [destruct H as [(-> & ->)|(-> & ->)]; auto|]. split; [reflexivity|]. cbn [concat]. rewrite !app_length. change (List.length space) with 1%nat. lia.
        -- right. right. exists d. split; [exact Pd|]. split; [reflexivity|]. split; [reflexivity|]. split; [reflexivity|]. cbn [concat]. rewrite !app_length. change (List.length space) with 1%nat. lia.
      * assert (T' : a' = [] /\ b' = t). { destruct (pieces_first _ _ Pt) as (x & t' & -> & _). cbn [first_piece hd take_chunks] in *. destruct (Nat.leb_spec (List.length x) (room - List.length c - 1)); [lia|]. injection T as <- <-. auto. }
        destruct T' as [-> ->]. exists [c]. split; [now constructor|]. cbn [concat]. rewrite app_nil_r. split; [exact F|]. right. left. exists t. split; [exact Pt|]. split; [left; auto|]. split; [reflexivity|lia].
    + injection E as <- <-. exists [c]. split; [now constructor|]. cbn [concat]. rewrite app_nil_r. split; [exact F|]. right. left. exists t. split; [exact Pt|]. split; [right; auto|]. split; [reflexivity|lia].
  - destruct (take_chunks (room - List.length c) t) as [a' b'] eqn:T. injection E as <- <-.
    destruct (Nat.leb_spec (List.length (first_piece t)) (room - List.length c)) as [Ft|Ft].
    + destruct (IH _ _ _ T Ft) as (c' & P' & L & H). exists (c :: c'). split; [now constructor|]. split; [cbn [concat]; rewrite !app_length; lia|].
      destruct H as [(-> & -> & ->)|[(d & Pd & H & -> & G)|(d & Pd & -> & -> & -> & G)]].
      * left. auto.
      * right. left. exists d. split; [exact Pd|]. split; [destruct H as [(-> & ->)|(-> & ->)]; auto|]. split; [reflexivity|]. cbn [concat]. rewrite !app_length. lia.
      * right. right. exists d. split; [exact Pd|]. split; [reflexivity|]. split; [reflexivity|]. split; [reflexivity|]. cbn [concat]. rewrite !app_length. lia.
    + assert (T' : a' = [] /\ b' = t). { destruct (pieces_first _ _ Pt) as (x & t' & -> & _). cbn [first_piece hd take_chunks] in *. destruct (Nat.leb_spec (List.length x) (room - List.length c)); [lia|]. injection T as <- <-. auto. }
      destruct T' as [-> ->]. exists [c]. split; [now constructor|]. cbn [concat]. rewrite app_nil_r. split; [exact F|]. right. right. exists t. split; [exact Pt|]. repeat (split; [reflexivity|]). lia.
Qed.
Lemma broken_pieces width l lines : broken width l lines -> pieces width l.
Proof.
  assert (G : forall a b, pieces width a -> pieces width b -> pieces width (a ++ b) /\ pieces width (a ++ space :: b)).
  { induction 1 as [c P|c t P Pt IH|c t P Pt IH]; intros B; cbn [app]; [split; constructor; auto| |]; destruct (IH B); split; constructor; auto. }
  induction 1; auto; now apply G.
Qed.
Theorem wrap_broken hyphens width : forall n l, pieces width l -> (List.length (concat l) + List.length l < n)%nat ->
  exists lines, broken width l lines /\ forall fuel started chunks, (n <= fuel)%nat -> chunks = l \/ (chunks = space :: l /\ started = true) -> wrap_chunks fuel hyphens width started chunks = Ok lines.
Proof.
  induction n as [|n IH]; intros l P F; [lia|].
  destruct (take_chunks width l) as [a b] eqn:T. destruct (pieces_first _ _ P) as (c & t & El & Pc).
  destruct (take_pieces width l P width a b T) as (x & Px & Lx & H); [subst l; exact (proj2 (proj2 Pc))|].
  assert (Nx : exists y z, x = y :: z) by (destruct (pieces_first _ _ Px) as (y & z & E & _); eauto). destruct Nx as (y & z & Ex).
  destruct (pieces_last _ _ Px) as [D1 D2].
  assert (Dr : drop_blank_last a = x) by (destruct H as [(-> & _)|[(d & _ & [(-> & _)|(-> & _)] & _)|(d & _ & -> & _)]]; auto).
  assert (Step : forall f st chunks, chunks = l \/ (chunks = space :: l /\ st = true) -> wrap_chunks (S f) hyphens width st chunks = (lines <- wrap_chunks f hyphens width true b ;; Ok (concat x :: lines))).
  { intros f st chunks Ch. assert (Hd : exists first others, chunks = first :: others /\ (if st && blank first then others else chunks) = l).
    { destruct Ch as [->|[-> ->]]; [|exists space, l; split; reflexivity]. subst l. exists c, t. rewrite (piece_blank _ _ Pc), andb_false_r. auto. }
    destruct Hd as (first & others & -> & Hl). cbn [wrap_chunks]. rewrite Hl, T.
    assert (Hb : match b with [] => (a, []) | c0 :: t0 => if (width <? List.length c0)%nat then (a ++ [firstn (break_at hyphens c0 (width - List.length (concat a))) c0], skipn (break_at hyphens c0 (width - List.length (concat a))) c0 :: t0) else (a, b) end = (a, b)).
    { destruct b as [|c0 t0]; [reflexivity|]. assert (L0 : (List.length c0 <= width)%nat).
      { destruct H as [(_ & Hb & _)|[(d & Pd & [(_ & Hb)|(_ & Hb)] & _)|(d & Pd & _ & Hb & _)]]; [discriminate| | |].
        - subst d. destruct (pieces_first _ _ Pd) as (c1 & t1 & E1 & (_ & _ & L1)). injection E1 as -> ->. exact L1.
        - injection Hb as -> ->. destruct Pc as (N & _ & L). destruct c; [contradiction|]. cbn in *. lia.
        - subst d. destruct (pieces_first _ _ Pd) as (c1 & t1 & E1 & (_ & _ & L1)). injection E1 as -> ->. exact L1. }
      destruct (Nat.ltb_spec width (List.length c0)); [lia|reflexivity]. }
    cbn zeta. rewrite Hb, Dr, Ex. reflexivity. }
  assert (Lc : (1 <= List.length (concat x) /\ 1 <= List.length x)%nat).
  { destruct (pieces_first _ _ Px) as (y' & z' & -> & (N & _)). cbn [concat List.length]. rewrite app_length. destruct y'; [contradiction|]. cbn. lia. }
  assert (Fin : forall d lines, (forall fuel started chunks, (n <= fuel)%nat -> chunks = d \/ (chunks = space :: d /\ started = true) -> wrap_chunks fuel hyphens width started chunks = Ok lines) -> b = d \/ b = space :: d ->
    forall fuel started chunks, (S n <= fuel)%nat -> chunks = l \/ (chunks = space :: l /\ started = true) -> wrap_chunks fuel hyphens width started chunks = Ok (concat x :: lines)).
  { intros d lines R Hb fuel st chunks Lf Ch. destruct fuel as [|f]; [lia|]. rewrite (Step f st chunks Ch), (R f true b); [reflexivity|lia|]. destruct Hb as [-> | ->]; auto. }
  destruct H as [(_ & -> & ->)|[(d & Pd & H & El' & G)|(d & Pd & _ & Hb & El' & G)]].
  - exists [concat x]. split; [now constructor|]. intros fuel st chunks Lf Ch. destruct fuel as [|[|f]]; [lia|lia|]. rewrite (Step _ st chunks Ch). reflexivity.
  - rewrite El' in F. rewrite concat_app, !app_length in F. cbn [concat List.length app space] in F.
    destruct (IH d Pd) as (lines & Br & R); [lia|]. exists (concat x :: lines). rewrite El'. split; [now apply br_space|]. rewrite <- El'. apply (Fin d lines R). destruct H as [(_ & ->)|(_ & ->)]; auto.
  - rewrite El' in F. rewrite concat_app, !app_length in F.
    destruct (IH d Pd) as (lines & Br & R); [lia|]. exists (concat x :: lines). rewrite El'. split; [now apply br_joined|]. rewrite <- El'. apply (Fin d lines R). auto.
Qed.
Lemma broken_rejoined width l lines : broken width l lines -> rejoined lines (concat l).
Proof. induction 1 as [l P L|l d lines P L G B IH|l d lines P L G B IH]; [constructor| |]; rewrite concat_app; [cbn [concat]; now apply rj_space|now apply rj_joined]. Qed.
Lemma pieces_munge width l : pieces width l -> forall column, map (fun c => if mem_chr c [9%N; 10%N; 11%N; 12%N; 13%N; 32%N] then 32%N else c) (expandtabs column (concat l)) = concat l.
Proof.
  set (f := fun c => if mem_chr c [9%N; 10%N; 11%N; 12%N; 13%N; 32%N] then 32%N else c).
  assert (G : forall c s, Forall (fun x => isspace_chr x = false) c -> (forall k, map f (expandtabs k s) = s) -> forall k, map f (expandtabs k (c ++ s)) = c ++ s).
  { induction c as [|x c IH]; intros s F H k; [apply H|]. inversion F as [|y z Fx Fc]; subst. cbn [app expandtabs].
    assert (Nx : (x =? 9)%N = false /\ (x =? 10)%N = false /\ (x =? 13)%N = false /\ f x = x).
    { unfold f. destruct (mem_chr x [9%N; 10%N; 11%N; 12%N; 13%N; 32%N]) eqn:M.
      - exfalso. unfold mem_chr in M. cbn [existsb] in M. rewrite !orb_true_iff, !N.eqb_eq in M. intuition (subst; discriminate).
      - unfold mem_chr in M. cbn [existsb] in M. rewrite !orb_false_iff in M. intuition. }
    destruct Nx as (-> & -> & -> & Ex). cbn [orb map]. rewrite Ex, IH; auto. }
  induction 1 as [c (_ & F & _)|c t (_ & F & _) Pt IH|c t (_ & F & _) Pt IH]; cbn [concat]; intros k; apply G; auto.
  intros k'. cbn [space app expandtabs N.eqb Pos.eqb orb map]. rewrite IH. reflexivity.
Qed.
Local Open Scope Z_scope.
Theorem printed_broken w s indent width l : splits w -> filter (fun c => negb (str_eqb c [])) (w_split w s) = l ->
  pieces (Z.to_nat (width - Z.of_nat (List.length indent))) l -> 0 < width ->
  exists first rest, broken (Z.to_nat (width - Z.of_nat (List.length indent))) l (first :: rest) /\ rejoined (first :: rest) s /\
    wrapped_print w s indent width = Ok (map (fun r => (true, r)) ((indent ++ first) :: map (app (repeat 32%N (List.length indent))) rest)).
Proof.
  intros S E P W. assert (C : concat l = s) by (rewrite <- E, concat_filter; apply S).
  assert (M : munge s = s) by (rewrite <- C; apply (pieces_munge _ _ P)).
  assert (Wi : 0 < width - Z.of_nat (List.length indent)). { destruct (pieces_first _ _ P) as (c & t & _ & (N & _ & L)). destruct c; [contradiction|]. cbn in L. lia. }
  destruct (wrap_broken (w_hyphens w) _ (wrap_fuel l) l P) as (lines & B & R); [unfold wrap_fuel; lia|].
  destruct lines as [|first rest]; [inversion B|]. exists first, rest. split; [exact B|]. split; [rewrite <- C; exact (broken_rejoined _ _ _ B)|].
  unfold wrapped_print. destruct (Z.eqb_spec width 0); [lia|]. unfold wrap. destruct (Z.leb_spec (width - Z.of_nat (List.length indent)) 0); [lia|].
  unfold split_chunks. rewrite M, E, (R _ false l); [|lia|auto]. cbn [bind print_lines map]. f_equal. f_equal. change (repeat 32%N (List.length indent)) with (blanks indent).
  assert (G : forall i ls, blanks i = i -> print_lines i ls = map (fun r => (true, r)) (map (app i) ls)) by (intros i ls H'; induction ls as [|x ls IH]; cbn [print_lines map]; [reflexivity|rewrite H', IH; reflexivity]).
  apply G. unfold blanks, spaces. now rewrite repeat_length.
Qed.
