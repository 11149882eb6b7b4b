(* Boxes are sorted into rows. *)
From Coq Require Import Floats.SpecFloat Sorting.Sorted Permutation Lia.
From Coq Require Import ZifyBool ZifyNat ZifyN.
From Verif Require Import PyBase PyBaseFacts LineModel PdfModel PdfSpec PdfProofs.
Local Open Scope Z_scope.

Definition row_ok (r : fdict textbox) : Prop := pkeys r /\ NoDup (keys r).
Definition dict_ok (d : fdict (fdict textbox)) : Prop := pkeys d /\ NoDup (keys d) /\ Forall (fun p => row_ok (snd p)) d.
Definition get2 (d : fdict (fdict textbox)) (x y : pyfloat) : option textbox := match fd_get y d with Some r => fd_get x r | None => None end.
Definition at_place (x y : pyfloat) (b : textbox) : bool := f_eqb x (tb_x b) && f_eqb y (tb_y b).
Lemma at_place_eq x y b : proper x -> proper y -> proper_box b -> at_place x y b = true <-> x = tb_x b /\ y = tb_y b.
Proof. intros P Q (Px & Py & _). unfold at_place. rewrite andb_true_iff, !eqb_eq by auto. reflexivity. Qed.
Lemma row_ok_get d y r : proper y -> dict_ok d -> fd_get y d = Some r -> row_ok r.
Proof. intros P (F & _ & R) E. apply get_in in E; auto. rewrite Forall_forall in R. exact (R _ E). Qed.

Lemma find_snoc {A} (f : A -> bool) l b : find f (l ++ [b]) = match find f l with Some a => Some a | None => if f b then Some b else None end.
Proof. induction l as [|a l IH]; cbn; [destruct (f b); reflexivity|]. destruct (f a); auto. Qed.

Definition collected (d : fdict (fdict textbox)) (seen : list textbox) : Prop :=
  dict_ok d /\ Forall proper_box seen /\
  (forall y, In y (keys d) <-> exists b, In b seen /\ tb_y b = y) /\
  (forall x y, proper x -> proper y -> get2 d x y = find (at_place x y) seen) /\
  (forall b, In b seen -> exists a, find (at_place (tb_x b) (tb_y b)) seen = Some a /\ tb_content a = tb_content b).

Lemma collected_consistent d seen : collected d seen -> consistent seen.
Proof.
  intros (_ & _ & _ & _ & H) a b Ia Ib Ex Ey. destruct (H _ Ia) as (c & E & <-). destruct (H _ Ib) as (c' & E' & <-). rewrite Ex, Ey in E. congruence.
Qed.

Lemma collect_ok : forall tbs d seen, collected d seen -> Forall proper_box tbs ->
  (exists d', collect d tbs = Ok d' /\ collected d' (seen ++ tbs)) \/ (collect d tbs = Err ValueError /\ ~ consistent (seen ++ tbs)).
Proof.
  induction tbs as [|tb tbs IH]; intros d seen C F.
  - left. exists d. rewrite app_nil_r. auto.
  - inversion F as [|? ? Pb Ft]; subst. destruct Pb as (Px & Py & Pc). destruct C as ((D1 & D2 & D3) & Fs & Ck & Cg & Cc). cbn [collect].
    set (d1 := match fd_get (tb_y tb) d with Some _ => d | None => fd_set (tb_y tb) [] d end).
    assert (D' : dict_ok d1).
    { unfold d1. destruct (fd_get (tb_y tb) d); [now split|]. split; [|split]; [now apply set_pkeys|now apply set_nodup|]. apply (set_all row_ok); auto. split; constructor. }
    assert (R : exists r, fd_get (tb_y tb) d1 = Some r /\ fd_get (tb_x tb) r = get2 d (tb_x tb) (tb_y tb) /\ forall x, proper x -> fd_get x r = get2 d x (tb_y tb)).
    { unfold d1, get2. destruct (fd_get (tb_y tb) d) as [r|] eqn:E; [exists r; auto|]. exists []. rewrite get_set_same by auto. auto. }
    assert (K : forall y, In y (keys d1) <-> y = tb_y tb \/ In y (keys d)).
    { intros y. unfold d1. destruct (fd_get (tb_y tb) d) as [r|] eqn:E; [|now apply set_keys]. split; auto. intros [->|]; auto. apply get_some; eauto. }
    assert (O : forall y, proper y -> y <> tb_y tb -> fd_get y d1 = fd_get y d).
    { intros y P N. unfold d1. destruct (fd_get (tb_y tb) d) as [r|] eqn:E; auto. apply get_set_other; auto. }
    destruct R as (r & Er & Eg & Ex). unfold fd_item. rewrite Er. cbn [bind]. rewrite Eg, Cg by auto.
    assert (Sn : forall P : Prop, P -> Forall proper_box (seen ++ [tb])).
    { intros _ _. apply Forall_app. split; auto. repeat constructor; auto; apply Px || apply Py. }
    replace (seen ++ tb :: tbs) with ((seen ++ [tb]) ++ tbs) by now rewrite <- app_assoc.
    destruct (find (at_place (tb_x tb) (tb_y tb)) seen) as [there|] eqn:Ef.
    + assert (It := find_some _ _ Ef). destruct It as [It Ep]. rewrite Forall_forall in Fs. apply at_place_eq in Ep as [Epx Epy]; auto.
      destruct (str_eqb (tb_content tb) (tb_content there)) eqn:Es; cbn [negb].
      * apply str_eqb_eq in Es. apply IH; auto. rewrite <- Forall_forall in Fs. repeat split; auto; try apply D'; try apply (Sn True I).
        -- rewrite K, Ck. intros [->|(b & Ib & <-)]; [exists tb|exists b]; split; auto; apply in_or_app; cbn; auto.
        -- intros (b & Ib & <-). rewrite K, Ck. apply in_app_or in Ib as [Ib|[<-|[]]]; eauto.
        -- intros x y Qx Qy. rewrite find_snoc, <- Cg by auto.
           assert (G : get2 d1 x y = get2 d x y). { destruct (f_eqb y (tb_y tb)) eqn:E; [apply eqb_eq in E; auto; subst; unfold get2 at 1; rewrite Er; auto|].
             unfold get2. rewrite O; auto. intros ->. rewrite eqb_refl in E; auto. discriminate. }
           rewrite G. destruct (get2 d x y) as [a|] eqn:Ea; auto. destruct (at_place x y tb) eqn:E; auto. apply at_place_eq in E as [-> ->]; auto; [|repeat split; auto; apply Px || apply Py].
           rewrite Cg in Ea by auto. congruence.
        -- intros b Ib. apply in_app_or in Ib as [Ib|[<-|[]]].
           ++ destruct (Cc _ Ib) as (a & Ea & <-). exists a. now rewrite find_snoc, Ea.
           ++ exists there. rewrite find_snoc, Ef. auto.
      * right. split; auto. intros Con. assert (tb_content tb = tb_content there); [|rewrite H, str_eqb_refl in Es; discriminate].
        apply Con; auto; apply in_or_app; left; apply in_or_app; cbn; auto.
    + assert (Rr : row_ok r) by (eapply row_ok_get; [apply Py|exact D'|exact Er]). destruct Rr as [R1 R2]. destruct D' as (D'1 & D'2 & D'3). apply IH; auto.
      repeat split; try apply (Sn True I); try (now apply set_pkeys); try (now apply set_nodup).
      * apply (set_all row_ok); auto. split; [now apply set_pkeys|now apply set_nodup].
      * rewrite set_keys, K, Ck by auto. intros [->|[->|(b & Ib & <-)]]; [exists tb|exists tb|exists b]; split; auto; apply in_or_app; cbn; auto.
      * intros (b & Ib & <-). rewrite set_keys, K, Ck by auto. apply in_app_or in Ib as [Ib|[<-|[]]]; eauto.
      * intros x y Qx Qy. rewrite find_snoc, <- Cg by auto. unfold get2 at 1. destruct (f_eqb y (tb_y tb)) eqn:E.
        -- apply eqb_eq in E; auto. subst y. rewrite get_set_same by auto. destruct (f_eqb x (tb_x tb)) eqn:E.
           ++ apply eqb_eq in E; auto. subst x. rewrite get_set_same by auto. rewrite Cg, Ef by auto. unfold at_place. now rewrite !eqb_refl.
           ++ rewrite get_set_other; auto; [|intros <-; rewrite eqb_refl in E; auto; discriminate]. rewrite Ex by auto. destruct (get2 d x (tb_y tb)); auto. unfold at_place. now rewrite E.
        -- rewrite get_set_other; auto; [|intros <-; rewrite eqb_refl in E; auto; discriminate]. rewrite O; auto; [|intros ->; rewrite eqb_refl in E; auto; discriminate].
           fold (get2 d x y). destruct (get2 d x y); auto. unfold at_place. now rewrite E, andb_false_r.
      * intros b Ib. apply in_app_or in Ib as [Ib|[<-|[]]].
        -- destruct (Cc _ Ib) as (a & Ea & <-). exists a. now rewrite find_snoc, Ea.
        -- exists tb. rewrite find_snoc, Ef. unfold at_place. now rewrite !eqb_refl.
Qed.
Lemma collect_nil : collected [] [].
Proof. repeat split; try constructor; cbn; try tauto. intros (b & [] & _). Qed.

(** * Joining rows *)
Fixpoint pick (d : fdict (fdict textbox)) (x : pyfloat) (ys : list pyfloat) : option textbox :=
  match ys with [] => None | y :: t => match pick d x t with Some v => Some v | None => get2 d x y end end.
Definition members (g : pyfloat * list pyfloat) : list pyfloat := fst g :: snd g.
Fixpoint not_close_next (gs : list (pyfloat * list pyfloat)) : Prop :=
  match gs with a :: (b :: _) as t => ~ close (fst a) (fst b) /\ not_close_next t | _ => True end.
Lemma pick_ext d d' x ys : (forall y, In y ys -> get2 d x y = get2 d' x y) -> pick d x ys = pick d' x ys.
Proof. induction ys as [|y ys IH]; intros H; cbn; auto. rewrite IH, H; cbn; auto. intros z I. apply H. now right. Qed.

Lemma consolidate_ok : forall t l d, dict_ok d -> StronglySorted f_lt (l :: t) -> Forall proper (l :: t) -> (forall y, In y (l :: t) -> In y (keys d)) ->
  exists d' ms gs, consolidate (Some l) t d = Ok d' /\ dict_ok d' /\
    l :: t = flat_map members ((l, ms) :: gs) /\ Forall (fun g => Forall (close (fst g)) (snd g)) ((l, ms) :: gs) /\ not_close_next ((l, ms) :: gs) /\
    (forall y, proper y -> ~ In y (l :: t) -> fd_get y d' = fd_get y d) /\
    (forall y, In y (map fst ((l, ms) :: gs)) -> exists r, fd_get y d' = Some r) /\
    (forall y, In y (l :: t) -> ~ In y (map fst ((l, ms) :: gs)) -> fd_get y d' = None) /\
    (forall g x, In g ((l, ms) :: gs) -> proper x -> get2 d' x (fst g) = pick d x (members g)).
Proof.
  induction t as [|y t IH]; intros l d D S P K.
  - exists d, [], []. cbn [consolidate flat_map members map fst snd app not_close_next]. split; auto. split; auto. split; auto. split; [repeat constructor|]. split; [exact I|].
    inversion P; subst. split; auto. split; [|split].
    + intros y [<-|[]]. apply get_some; auto. apply D. apply K. now left.
    + intros y [<-|[]] N. destruct N. now left.
    + intros g x [<-|[]] _. cbn [fst]. unfold pick, members. cbn [fst snd]. now destruct (get2 d x l).
  - cbn [consolidate]. inversion S as [|? ? St Hl]; subst. inversion St as [|? ? St' Hy]; subst. inversion Hl as [|? ? Lly Llt]; subst.
    inversion P as [|? ? Pl Pt]; subst. inversion Pt as [|? ? Py Pt']; subst. destruct D as (D1 & D2 & D3).
    assert (Ny : ~ In y t). { intros I. rewrite Forall_forall in Hy. exact (lt_irrefl _ (Hy _ I)). }
    assert (Nl : ~ In l (y :: t)). { intros I. rewrite Forall_forall in Hl. exact (lt_irrefl _ (Hl _ I)). }
    assert (Nly : l <> y) by (intros ->; apply Nl; now left).
    destruct (f_ltb (SFabs (f_sub y l)) f_02) eqn:Ec.
    + destruct (proj2 (get_some l d Pl D1) (K _ (or_introl eq_refl))) as (a & Ea). destruct (proj2 (get_some y d Py D1) (K _ (or_intror (or_introl eq_refl)))) as (b & Eb).
      unfold fd_item. rewrite Ea, Eb. cbn [bind]. set (d1 := fd_del y (fd_set l (fd_update a b) d)).
      assert (Ra : row_ok a) by (apply (row_ok_get d l); auto; now split). assert (Rb : row_ok b) by (apply (row_ok_get d y); auto; now split).
      destruct Ra as [Ra1 Ra2], Rb as [Rb1 Rb2]. destruct (update_spec b Rb1 Rb2 a Ra1 Ra2) as (U1 & U2 & U3).
      assert (Dd : dict_ok d1).
      { unfold d1. split; [|split]; [apply del_pkeys; now apply set_pkeys|apply del_nodup; now apply set_nodup|]. apply (del_all row_ok). apply (set_all row_ok); auto. now split. }
      assert (G1 : fd_get l d1 = Some (fd_update a b)). { unfold d1. rewrite del_other; auto; [|now apply set_pkeys]. now apply get_set_same. }
      assert (G2 : forall z, proper z -> z <> l -> z <> y -> fd_get z d1 = fd_get z d). { intros z Pz N1 N2. unfold d1. rewrite del_other; auto; [|now apply set_pkeys]. now apply get_set_other; auto. }
      assert (G3 : fd_get y d1 = None). { unfold d1. apply del_same; auto. now apply set_pkeys. }
      destruct (IH l d1 Dd) as (d' & ms & gs & E & D' & Eq & Cl & Nc & Go & Gk & Gn & Gp).
      * constructor; auto.
      * constructor; auto.
      * intros z Iz. apply get_some; auto; [|apply Dd|]. { rewrite Forall_forall in P. apply P. destruct Iz; cbn; auto. }
        destruct Iz as [<-|Iz]; [eauto|]. rewrite G2.
        -- apply get_some; auto; [rewrite Forall_forall in Pt'; auto|]. apply K. cbn. auto.
        -- rewrite Forall_forall in Pt'; auto.
        -- intros ->. apply Nl. now right.
        -- intros ->. auto.
      * exists d', (y :: ms), gs. split; auto. split; auto. cbn [flat_map members fst snd app] in Eq |- *. injection Eq as Eq. split; [now rewrite Eq|].
        inversion Cl as [|? ? Cl1 Cl2]; subst. cbn [fst snd] in *. split; [constructor; auto; constructor; auto|]. split; [exact Nc|]. split; [|split; [|split]].
        -- intros z Pz N. rewrite Go; auto; [|intros [<-|I]; apply N; cbn; auto]. apply G2; auto; intros ->; apply N; cbn; auto.
        -- exact Gk.
        -- intros z [<-|[<-|I]] N; [destruct N; now left| |apply Gn; cbn; auto]. rewrite Go; auto. intros [<-|I]; auto.
        -- intros g x Ig Px. destruct Ig as [<-|Ig].
           ++ etransitivity; [exact (Gp (l, ms) x (or_introl eq_refl) Px)|]. unfold members. cbn [pick fst snd].
              replace (pick d1 x ms) with (pick d x ms). 2:{ apply pick_ext. intros z Iz. unfold get2. rewrite G2; auto.
                 - rewrite Forall_forall in Pt'. apply Pt'. apply in_or_app. now left.
                 - intros ->. apply Nl. right. apply in_or_app. now left.
                 - intros ->. apply Ny. apply in_or_app. now left. }
              destruct (pick d x ms); auto. unfold get2. rewrite G1, Ea, Eb. now apply U3.
           ++ rewrite (Gp g x (or_intror Ig) Px). apply pick_ext. intros z Iz.
              assert (It : In z (flat_map members gs)) by (apply in_flat_map; eauto). unfold get2. rewrite G2; auto.
              ** rewrite Forall_forall in Pt'. apply Pt'. apply in_or_app. now right.
              ** intros ->. apply Nl. right. apply in_or_app. now right.
              ** intros ->. apply Ny. apply in_or_app. now right.
    + destruct (IH y d (conj D1 (conj D2 D3)) St Pt) as (d' & ms & gs & E & D' & Eq & Cl & Nc & Go & Gk & Gn & Gp).
      * intros z I. apply K. now right.
      * exists d', [], ((y, ms) :: gs). split; auto. split; auto. split; [cbn [flat_map members fst snd app] in *; now rewrite Eq|]. split; [constructor; auto; constructor|].
        split; [split; auto; cbn [fst]; unfold close, f_lt; congruence|]. split; [|split; [|split]].
        -- intros z Pz N. apply Go; auto. intros I. apply N. now right.
        -- intros z [<-|I]; [|apply Gk; auto]. cbn [fst]. rewrite Go; auto. apply get_some; auto. apply K. now left.
        -- intros z [<-|I] N; [destruct N; now left|]. apply Gn; auto. intros I'. apply N. now right.
        -- intros g x [<-|Ig] Px; [|apply Gp; auto]. cbn [fst snd members pick]. unfold members. cbn [fst snd pick]. unfold get2. rewrite Go; auto.
Qed.
