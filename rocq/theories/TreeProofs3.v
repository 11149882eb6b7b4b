From Coq Require Import ZifyBool ZifyNat ZifyN.
From Verif Require Import PyBase PyBaseFacts NumSpec IdModel IdSpec IdProofs LineModel DateModel RefModel RefSpec
  RefProofs RefProofs2 TreeModel TreeSpec TreeProofs TreeProofs2.
Local Open Scope Z_scope.

(** * The result of a walk *)
Lemma container_dec s : s_kind s = KBlockAmendmentContainer \/ s_kind s <> KBlockAmendmentContainer.
Proof. destruct (s_kind s); auto; right; discriminate. Qed.
Lemma with_same_children s cs : cs = s_children s -> with_children s cs = s.
Proof. intros ->. symmetry. apply sae_eta. Qed.

Lemma mapped_list_same f sel b r l :
  (forall x, In (ChSae x) l -> mapped f sel b r x x) -> mapped_list f sel b r l l.
Proof.
  induction l as [|c l IH]; intros H; [constructor|].
  assert (T : mapped_list f sel b r l l) by (apply IH; intros x Hx; apply H; now right).
  destruct c; try (constructor; [intros; discriminate|exact T]).
  constructor; [apply H; now left|exact T].
Qed.
Lemma mapped_unchanged f sel b s : forall p, (forall r x, In (r, x) (nodes true p s) -> ~ sel r) ->
  mapped f sel b p s s.
Proof.
  induction s as [s IH] using sae_induct. intros p H. destruct (container_dec s) as [K|K]; [now constructor|].
  rewrite nodes_eq in H by assumption.
  assert (N : ~ sel (place p s)) by (eapply H; now left).
  eapply mapped_sae with (s1 := s) (cs := s_children s) (s2 := s); [exact K| | | |].
  - destruct b; [|reflexivity]. now constructor.
  - destruct (s_children s) as [cs|] eqn:E; constructor. apply mapped_list_same. intros x Hx.
    eapply IH; [reflexivity|exact Hx|]. intros r y Hy. eapply H. right. cbn. apply in_flat_map.
    exists (ChSae x). split; [exact Hx|exact Hy].
  - symmetry. now apply with_same_children.
  - destruct b; [reflexivity|]. now constructor.
Qed.

Lemma mapM_st_total {A B} (g : nat -> A -> unit -> res (B * unit)) (R : A -> B -> Prop) l :
  (forall x, In x l -> exists n, forall fuel, (n <= fuel)%nat -> exists y, g fuel x tt = Ok (y, tt) /\ R x y) ->
  exists n, forall fuel, (n <= fuel)%nat -> exists ys, mapM_st (g fuel) l tt = Ok (ys, tt) /\ Forall2 R l ys.
Proof.
  induction l as [|x l IH]; intros H.
  - exists 0%nat. intros fuel _. exists []. split; [reflexivity|constructor].
  - destruct (H x (or_introl eq_refl)) as [n1 H1]. destruct IH as [n2 H2]; [intros; apply H; now right|].
    exists (Nat.max n1 n2). intros fuel L. destruct (H1 fuel ltac:(lia)) as (y & E1 & R1).
    destruct (H2 fuel ltac:(lia)) as (ys & E2 & R2). exists (y :: ys). cbn. rewrite E1. cbn [bind]. rewrite E2.
    split; [reflexivity|now constructor].
Qed.

(* the relation between a child and its image *)
Definition child_image f sel b r (c d : child) : Prop :=
  match c with
  | ChSae x => exists y, d = ChSae y /\ mapped f sel b r x y /\ s_kind y = s_kind x
  | _ => d = c
  end.
Lemma image_list f sel b r l k : Forall2 (child_image f sel b r) l k -> mapped_list f sel b r l k.
Proof.
  induction 1 as [|c d l k H _ IH]; [constructor|]. destruct c as [x| | |]; cbn in H; [destruct H as (y & -> & H & _)|subst d..];
    constructor; auto; intros; discriminate.
Qed.
Lemma image_classes f sel b r l k : Forall2 (child_image f sel b r) l k -> map class_of k = map class_of l.
Proof.
  induction 1 as [|c d l k H _ IH]; [reflexivity|]. cbn. rewrite IH. f_equal.
  destruct c as [x| | |]; cbn in H; [destruct H as (y & -> & _ & H)|subst d..]; cbn; congruence.
Qed.
Lemma well_formed_same_classes s cs ds : well_formed s -> s_children s = Some cs -> map class_of ds = map class_of cs ->
  well_formed (with_children s (Some ds)).
Proof.
  intros [T N O A] Ec Em. constructor; cbn.
  - intros H. destruct (T H) as (_ & E & _). congruence.
  - intros [= ->]. apply N. destruct cs; [exact Ec|discriminate].
  - intros K l c d [= <-] Hc Hd. apply (in_map class_of) in Hc, Hd. rewrite Em in Hc, Hd.
    apply in_map_iff in Hc as (c' & <- & Hc), Hd as (d' & <- & Hd). eauto.
  - intros l c [= <-] Hc. apply (in_map class_of) in Hc. rewrite Em in Hc.
    apply in_map_iff in Hc as (c' & <- & Hc). eauto.
Qed.

Lemma sae_result f flt cf : own_data_only f -> forall s p, built_sae s -> fits p s -> good_node flt p s ->
  exists n, forall fuel, (n <= fuel)%nat -> exists s', sae_map fuel (pure f) flt cf p s tt = Ok (s', tt) /\
    mapped f (chosen_by flt) (negb cf) p s s' /\ s_kind s' = s_kind s /\ s_identifier s' = s_identifier s.
Proof.
  intros OD. induction s as [s IH] using sae_induct. intros p B F G.
  destruct (container_dec s) as [K|K].
  { exists 1%nat. intros [|fuel] L; [lia|]. exists s. cbn [sae_map]. rewrite relative_container by assumption.
    split; [reflexivity|]. split; [now constructor|auto]. }
  destruct (relative_place p s K) as (rel & E0 & ER). pose proof (good_self flt p s K G) as GS.
  destruct (disjoint_spec flt _ GS) as (stop & ES & HS). destruct (in_filter_spec flt _ GS) as (sel & EF & HF).
  destruct stop.
  { exists 1%nat. intros [|fuel] L; [lia|]. exists s. cbn [sae_map]. rewrite E0. cbv zeta. rewrite ER, ES. cbn [bind].
    split; [reflexivity|]. split; [|auto]. apply mapped_unchanged. intros r x Hx. apply HS; [reflexivity|].
    eapply nodes_ext; eauto. }
  destruct (built_local s B) as [W Bc].
  assert (CH : exists n, forall fuel, (n <= fuel)%nat -> forall res, s_children res = s_children s ->
     s_kind res = s_kind s -> well_formed res ->
     exists cs, (match s_children res with
      | None | Some [] => Ok (res, tt)
      | Some cs =>
         ' (new_children, st) <- mapM_st (fun c st => match c with
              | ChSae x => ' (y, st) <- sae_map fuel (pure f) flt cf (place p s) x st ;; Ok (ChSae y, st)
              | _ => Ok (c, st) end) cs tt ;;
         res <- evolve_children res (Some new_children) ;; Ok (res, st)
      end) = Ok (with_children res cs, tt) /\
      mapped_children f (chosen_by flt) (negb cf) (place p s) (s_children s) cs).
  { destruct (s_children s) as [cs|] eqn:Ec.
    2:{ exists 0%nat. intros fuel _ res EC _ _. rewrite EC. exists None. rewrite with_same_children by auto.
        split; [reflexivity|constructor]. }
    destruct (mapM_st_total (fun fuel c st => match c with
              | ChSae x => ' (y, st) <- sae_map fuel (pure f) flt cf (place p s) x st ;; Ok (ChSae y, st)
              | _ => Ok (c, st) end) (child_image f (chosen_by flt) (negb cf) (place p s)) cs) as [n Hn].
    { intros c Hc. destruct c as [x| | |]; try (exists 0%nat; intros fuel _; eexists; split; reflexivity).
      destruct (IH cs x eq_refl Hc (place p s)) as [n Hn].
      - specialize (Bc cs (ChSae x) eq_refl Hc). now inversion Bc.
      - eapply place_fits; eauto.
      - eapply good_child; eauto.
      - exists n. intros fuel L. destruct (Hn fuel L) as (y & E & M & KY & _). exists (ChSae y). rewrite E.
        split; [reflexivity|]. exists y. auto. }
    exists n. intros fuel L res EC KR WR. rewrite EC. destruct (Hn fuel L) as (ds & Ed & Fd).
    exists (Some ds). split; [|constructor; now apply image_list].
    destruct cs as [|c cs]; [now apply wf_nonempty in W|].
    rewrite Ed. cbn [bind]. unfold evolve_children.
    replace (new_sae _ _ _ _ _ _ _) with (Ok (with_children res (Some ds))); [reflexivity|]. symmetry. apply new_sae_ok.
    split; [reflexivity|]. eapply well_formed_same_classes; eauto. eapply image_classes; eauto. }
  destruct CH as [n CH]. exists (S n). intros [|fuel] L; [lia|]. specialize (CH fuel ltac:(lia)).
  cbn [sae_map]. rewrite E0. cbv zeta. rewrite ER, ES, EF. cbn [bind].
  assert (AP : forall x, applied f (chosen_by flt) (place p s) x (if sel then f (place p s) x else x)).
  { intros x. destruct sel; constructor; [now apply HF|]. intros X. apply HF in X. discriminate. }
  assert (KD : forall x, s_kind (if sel then f (place p s) x else x) = s_kind x /\
                         s_identifier (if sel then f (place p s) x else x) = s_identifier x /\
                         s_children (if sel then f (place p s) x else x) = s_children x /\
                         (well_formed x -> well_formed (if sel then f (place p s) x else x))).
  { intros x. destruct sel; [apply OD|auto]. }
  destruct cf; cbn [negb bind] in *.
  - destruct (CH s eq_refl eq_refl W) as (cs & Ecs & Mcs). rewrite Ecs. cbn [bind].
    exists (if sel then f (place p s) (with_children s cs) else with_children s cs).
    split; [destruct sel; reflexivity|]. split.
    + eapply mapped_sae with (s1 := s); [exact K|reflexivity|exact Mcs|reflexivity|]. apply AP.
    + destruct (KD (with_children s cs)) as (-> & -> & _). auto.
  - destruct (KD s) as (K1 & K2 & K3 & K4).
    destruct (CH (if sel then f (place p s) s else s) K3 K1 (K4 W)) as (cs & Ecs & Mcs).
    exists (with_children (if sel then f (place p s) s else s) cs).
    assert (EQ : (if sel then pure f (place p s) s tt else Ok (s, tt)) = Ok (if sel then f (place p s) s else s, tt))
      by (destruct sel; reflexivity).
    rewrite EQ. cbn [bind]. rewrite Ecs. cbn [bind]. split; [reflexivity|]. split; [|auto].
    eapply mapped_sae with (s1 := if sel then f (place p s) s else s); [exact K|apply AP| |reflexivity|reflexivity].
    rewrite K3. exact Mcs.
Qed.

Lemma mapped_keeps f sel b p s s' : own_data_only f -> mapped f sel b p s s' ->
  s_kind s' = s_kind s /\ s_identifier s' = s_identifier s.
Proof.
  intros OD H. inversion H as [|p' x s1 cs s2 s3 K A M E E']; subst; [auto|].
  assert (AK : forall r x y, applied f sel r x y -> s_kind y = s_kind x /\ s_identifier y = s_identifier x).
  { intros r x y Ha. inversion Ha; subst; [|auto]. destruct (OD r x) as (? & ? & _). auto. }
  destruct b.
  - subst s'. apply AK in A. exact A.
  - subst s1. apply AK in E'. exact E'.
Qed.

Lemma act_result f flt cf a : own_data_only f -> built_act a -> good_filter a flt ->
  exists n, forall fuel, (n <= fuel)%nat -> exists b, map_saes fuel a (pure f) flt cf tt = Ok (b, tt) /\
    mapped_act f (chosen_by flt) (negb cf) a b.
Proof.
  intros OD B G.
  destruct (mapM_st_total (fun fuel c st => match c with
      | AStruct _ => Ok (c, st)
      | AArticle x =>
          let r := mk_ref (Some (act_identifier a)) (RId (a_identifier x)) RNone RNone RNone in
          sel <- in_filter r None ;;
          if (sel : bool) then
            ' (y, st) <- article_map fuel (pure f) flt cf (mk_ref (Some (act_identifier a)) RNone RNone RNone RNone) x st ;;
            Ok (AArticle y, st)
          else Ok (c, st)
      end) (mapped_act_child f (chosen_by flt) (negb cf) a) (act_children a)) as [n Hn].
  { intros [e|x] Hx.
    - exists 0%nat. intros fuel _. exists (AStruct e). split; [reflexivity|constructor].
    - cbn [in_filter bind]. unfold article_map. rewrite article_relative.
      destruct (disjoint_spec flt _ (good_article a flt x G Hx)) as (stop & ES & HS). rewrite ES. cbn [bind].
      destruct (B x Hx) as [Bx Px]. apply built_article_local in Bx as [Wx Bx]. unfold paragraphs_only in Px.
      rewrite Forall_forall in Px.
      destruct stop.
      + exists 0%nat. intros fuel _. exists (AArticle x). split; [reflexivity|]. destruct x as [i t ps]. constructor.
        cbn [a_paragraphs] in *. set (pl := article_place a (mk_article i t ps)) in *.
        assert (X : forall p, In p ps -> mapped f (chosen_by flt) (negb cf) pl p p).
        { intros p Hp. apply mapped_unchanged. intros r y Hy. apply HS; [reflexivity|].
          eapply ext_trans; [apply place_ext; apply article_fits; apply Px; exact Hp|]. eapply nodes_ext; eauto.
          apply article_fits; auto. }
        clearbody pl. clear -X. induction ps as [|p ps IH]; constructor; [apply X; now left|]. apply IH. intros; apply X; now right.
      + destruct (mapM_st_total (fun fuel c st =>
              ' (y, st) <- sae_map fuel (pure f) flt cf (article_place a x) c st ;;
              _ <- assert_ (sae_kind_eqb (s_kind y) KParagraph) ;;
              Ok (y, st)) (mapped f (chosen_by flt) (negb cf) (article_place a x)) (a_paragraphs x)) as [n Hn].
        { intros p Hp. destruct (sae_result f flt cf OD p (article_place a x)) as [n Hn]; auto using article_fits.
          - eapply good_paragraph; eauto.
          - exists n. intros fuel L. destruct (Hn fuel L) as (y & E & M & KY & IY). exists y. rewrite E. cbn [bind].
            rewrite KY, (Px p Hp). cbn. auto. }
        exists n. intros fuel L. destruct (Hn fuel L) as (qs & Eq & Fq).
        exists (AArticle (mk_article (a_identifier x) (a_title x) qs)). rewrite Eq. cbn [bind].
        assert (NA : new_article (a_identifier x) (a_title x) qs = Ok (mk_article (a_identifier x) (a_title x) qs)).
        { apply new_article_ok. split; [reflexivity|].
          assert (EI : map s_identifier qs = map s_identifier (a_paragraphs x)).
          { clear -Fq OD. induction Fq as [|p q ps qs H _ IH]; [reflexivity|]. cbn. rewrite IH. f_equal.
            eapply mapped_keeps; eauto. }
          destruct Wx as [(p & Ep & Np)|Fx].
          - left. rewrite Ep in EI. destruct qs as [|q [|]]; try discriminate. exists q. split; [reflexivity|].
            cbn in EI. injection EI as ->. exact Np.
          - right. cbn. clear -EI Fx. revert EI. generalize dependent (a_paragraphs x). intros ps F. revert qs.
            induction F as [|p ps Hp F IH]; intros [|q qs] E; try discriminate; constructor.
            + cbn in E. injection E as -> _. exact Hp.
            + apply IH. cbn in E. now injection E. }
        rewrite NA. cbn [bind]. split; [reflexivity|]. destruct x as [i t ps]. constructor. exact Fq. }
  exists n. intros fuel L. destruct (Hn fuel L) as (cs & E & Fc).
  exists (mk_act (act_identifier a) (act_publication_date a) (act_subject a) (act_preamble a) cs).
  unfold map_saes, map_articles. cbv beta zeta in E |- *. rewrite E. cbn [bind]. split; [reflexivity|]. unfold mapped_act. cbn. auto.
Qed.

(** * The identity *)
Lemma mapped_id sel b s : forall p s', mapped (fun _ x => x) sel b p s s' -> s' = s.
Proof.
  induction s as [s IH] using sae_induct. intros p s' H.
  inversion H as [|p' x s1 cs s2 s3 K A M E E']; subst; [reflexivity|].
  assert (AI : forall r x y, applied (fun _ x => x) sel r x y -> y = x) by (intros r x y Ha; inversion Ha; auto).
  assert (s1 = s) as -> by (destruct b; [now apply AI in A|exact A]).
  assert (cs = s_children s).
  { destruct (s_children s) as [l|] eqn:E1; inversion M as [r|r l' k ML]; [|reflexivity]. f_equal. subst.
    assert (X : forall x, In (ChSae x) l -> forall p s', mapped (fun _ x => x) sel b p x s' -> s' = x)
      by (intros; eapply IH; eauto).
    clear -ML X. induction ML as [|r x x' l k Hm ML IHl|r c l k Hc ML IHl]; [reflexivity| |].
    - f_equal; [|apply IHl; intros; eapply X; eauto; now right]. f_equal. eapply X; [now left|exact Hm].
    - f_equal. apply IHl. intros. eapply X; eauto. now right. }
  subst cs. rewrite with_same_children in E' by reflexivity. destruct b; [exact E'|now apply AI in E'].
Qed.
Lemma act_identity flt cf a : built_act a -> good_filter a flt ->
  exists n, forall fuel, (n <= fuel)%nat -> map_saes fuel a (pure (fun _ s => s)) flt cf tt = Ok (a, tt).
Proof.
  intros B G. assert (OD : own_data_only (fun _ s => s)) by (intros r s; auto).
  destruct (act_result (fun _ s => s) flt cf a OD B G) as [n Hn].
  exists n. intros fuel L. destruct (Hn fuel L) as (b & E & M). rewrite E. do 2 f_equal.
  destruct M as (M1 & M2 & M3 & M4 & M5). destruct a as [i d sj pr cs], b as [i' d' sj' pr' cs']. cbn in *. subst. f_equal.
  set (a := mk_act i d sj pr cs) in *. clearbody a. clear -M5.
  induction M5 as [|c c' cs cs' H _ IH]; [reflexivity|]. f_equal; [|exact IH].
  inversion H as [|i t ps qs F]; subst; [reflexivity|]. do 2 f_equal.
  set (pl := article_place a (mk_article i t ps)) in *. clearbody pl. clear -F.
  induction F as [|p q ps qs H _ IH]; [reflexivity|]. f_equal; [|exact IH]. eapply mapped_id; eauto.
Qed.
