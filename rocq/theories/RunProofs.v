(* Proofs for RunSpec: lines from the cache, and paths. *)
From Coq Require Import Lia.
From Verif Require Import PyBase PyBaseFacts IdModel LineModel PdfModel D2oModel D2oSpec D2oHun D2oHunSpec D2oHunProofs D2oHunProofs2 JsonSpec JsonProofs P_D2o CacheModel CacheSpec CacheProofs RunModel RunSpec.
Local Open Scope Z_scope.

(** * Lines *)
Local Notation alike_now := (alike hun_table).
Lemma every_alike {A B} (f : value -> option B) (g : A -> value) (h : A -> B) l m :
  Forall2 alike_now (map g l) m -> (forall x v, In x l -> alike_now (g x) v -> f v = Some (h x)) -> every f m = Some (map h l).
Proof.
  revert m. induction l as [|x l IH]; intros m F H; cbn [map] in F; inversion F as [|? v ? m' X F']; subst; [reflexivity|]. cbn [every map].
  rewrite (H x v (or_introl eq_refl) X), (IH m' F'); [reflexivity|]. intros y w I. apply H. right. exact I.
Qed.
Lemma alike_list_inv l v : alike_now (VList l) v -> exists m, v = VList m /\ Forall2 alike_now l m.
Proof. intros H. inversion H; subst; [|eexists; split; [reflexivity|assumption]]. exists l. split; [reflexivity|]. clear. induction l; constructor; [constructor|assumption]. Qed.
Lemma alike_tuple_inv l v : alike_now (VTuple l) v -> exists m, v = VTuple m /\ Forall2 alike_now l m.
Proof. intros H. inversion H; subst; [|eexists; split; [reflexivity|assumption]]. exists l. split; [reflexivity|]. clear. induction l; constructor; [constructor|assumption]. Qed.
Lemma alike_obj_inv c fs l v : c_fields (class_of_id hun_table c) = Some fs -> alike_now (VObj c l) v -> exists m, v = VObj c m /\ (l = m \/ alike_fields hun_table fs l m).
Proof.
  intros E H. inversion H as [| | |? fs' ? m A F]; subst; [exists l; auto|]. exists m. split; [reflexivity|]. right. unfold attrs_class in A. rewrite E in A. injection A as <-. exact F.
Qed.
Lemma alike_prim v w : match v with VBool _ | VStr _ | VFloat _ => True | _ => False end -> alike_now v w -> v = w.
Proof. intros P H. inversion H; subst; [reflexivity| | |]; destruct P. Qed.
Lemma part_back p v : alike_now (part_value p) v -> part_of v = Some p.
Proof.
  intros H. unfold part_value in H. apply (alike_obj_inv _ [required (u8 "dx") TFloat; required (u8 "content") TStr; defaulted (u8 "bold") TBool (VBool false)]) in H; [|reflexivity].
  destruct H as (m & -> & [<-|F]); [destruct p; reflexivity|].
  inversion F as [|? ? ? x1 ? m1 A1 F1|? ? ? d ? m1 D1 ? F1]; subst; [|discriminate D1]. apply alike_prim in A1; [|exact Logic.I]. subst x1.
  inversion F1 as [|? ? ? x2 ? m2 A2 F2|? ? ? d ? m2 D2 ? F2]; subst; [|discriminate D2]. apply alike_prim in A2; [|exact Logic.I]. subst x2.
  inversion F2 as [|? ? ? x3 ? m3 A3 F3|? ? ? d ? m3 D3 Q F3]; subst; inversion F3; subst.
  - apply alike_prim in A3; [|exact Logic.I]. subst x3. destruct p; reflexivity.
  - injection D3 as <-. destruct p as [dx c b]. cbn [p_dx p_content p_bold part_of number_of] in *. destruct b; [discriminate Q|reflexivity].
Qed.
Lemma every_parts ps : every part_of (map part_value ps) = Some ps.
Proof. induction ps as [|p ps IH]; [reflexivity|]. cbn [map every]. rewrite IH, (part_back p _ (alike_same _ _)). reflexivity. Qed.
Lemma line_back l v : l_margin_right l <> SpecFloat.S754_zero true -> alike_now (line_value l) v -> line_of_value v = Some l.
Proof.
  intros Z H. unfold line_value in H.
  apply (alike_obj_inv _ [mk_field (u8 "_parts") (TVarTuple (TClass (u8 "IndentedLinePart"))) (Factory (VTuple [])) true; mk_field (u8 "margin_right") TFloat (Default (VInt 0)) false]) in H; [|reflexivity].
  destruct H as (m & -> & [<-|F]).
  - destruct l as [ps r]. cbn [l_parts l_margin_right line_of_value tuple_value number_of]. unfold tuple_value. rewrite every_parts. reflexivity.
  - inversion F as [|? ? ? x1 ? m1 A1 F1|? ? ? d ? m1 D1 ? F1]; subst; [|discriminate D1]. unfold tuple_value in A1. apply alike_tuple_inv in A1 as (qs & -> & Q).
    assert (E : every part_of qs = Some (l_parts l)) by (rewrite <- (map_id (l_parts l)); apply (every_alike part_of part_value (fun x => x)); [exact Q|intros x w _ X; exact (part_back x w X)]).
    inversion F1 as [|? ? ? x2 ? m2 A2 F2|? ? ? d ? m2 D2 Q2 F2]; subst; inversion F2; subst; cbn [line_of_value]; rewrite E.
    + apply alike_prim in A2; [|exact Logic.I]. subst x2. destruct l; reflexivity.
    + injection D2 as <-. change (int_eq_float 0 (l_margin_right l) = true) in Q2. apply int_eq_float_0 in Q2 as (s & Es). destruct s; [contradiction|]. destruct l as [ps r]. cbn [l_margin_right] in Es. subst r. reflexivity.
Qed.
Lemma page_back ls v : Forall (fun l => l_margin_right l <> SpecFloat.S754_zero true) ls -> alike_now (VObj (u8 "PageOfLines") [VList (map line_value ls)]) v -> page_of v = Some ls.
Proof.
  intros Z H. apply (alike_obj_inv _ [mk_field (u8 "lines") (TList (TClass (u8 "IndentedLine"))) (Factory (VList [])) true]) in H; [|reflexivity].
  rewrite Forall_forall in Z. assert (G : forall qs, Forall2 alike_now (map line_value ls) qs -> every line_of_value qs = Some ls).
  { intros qs Q. rewrite <- (map_id ls). apply (every_alike line_of_value line_value (fun x => x)); [exact Q|]. intros x w I X. exact (line_back x w (Z x I) X). }
  assert (S : forall l : list value, Forall2 alike_now l l) by (induction l; constructor; [constructor|assumption]).
  destruct H as (m & -> & [<-|F]); [exact (G _ (S _))|].
  inversion F as [|? ? ? x1 ? m1 A1 F1|? ? ? d ? m1 D1 ? F1]; subst; [|discriminate D1]. inversion F1; subst. apply alike_list_inv in A1 as (qs & -> & Q). exact (G qs Q).
Qed.
Lemma pages_back pages v : clean_pages pages -> alike_now (pdf_value pages) v -> pages_of v = Some pages.
Proof.
  intros Z H. apply (alike_obj_inv _ [mk_field (u8 "pages") (TList (TClass (u8 "PageOfLines"))) (Factory (VList [])) true]) in H; [|reflexivity].
  unfold clean_pages in Z. rewrite Forall_forall in Z. assert (G : forall qs, Forall2 alike_now (map (fun l => VObj (u8 "PageOfLines") [VList (map line_value l)]) pages) qs -> every page_of qs = Some pages).
  { intros qs Q. rewrite <- (map_id pages). apply (every_alike page_of (fun l => VObj (u8 "PageOfLines") [VList (map line_value l)]) (fun x => x)); [exact Q|]. intros x w I X. exact (page_back x w (Z x I) X). }
  assert (S : forall l : list value, Forall2 alike_now l l) by (induction l; constructor; [constructor|assumption]).
  destruct H as (m & -> & [<-|F]); [exact (G _ (S _))|].
  inversion F as [|? ? ? x1 ? m1 A1 F1|? ? ? d ? m1 D1 ? F1]; subst; [|discriminate D1]. inversion F1; subst. apply alike_list_inv in A1 as (qs & -> & Q). exact (G qs Q).
Qed.
(* what is written of pages can be read as the same pages *)
Theorem pages_kept pages : clean_pages pages -> to_dict hun_table (pdf_value pages) PDF_TYPE = Ok (pages_json pages) /\ plain (pages_json pages) /\
  exists v, to_object hun_table (pages_json pages) PDF_TYPE = Ok v /\ pages_of v = Some pages.
Proof.
  intros Z. assert (K : ty_ok hun_table PDF_TYPE) by (apply known_type; reflexivity).
  destruct (C42_roundtrip hun_table (pdf_value pages) _ hun_table_ok K (pdf_typed pages)) as (x & v & E1 & P & E2 & A).
  pose proof (pages_dump pages) as E. fold PDF_TYPE in E. change (to_dict hun_table (pdf_value pages) PDF_TYPE = Ok (pages_json pages)) in E. rewrite E in E1. injection E1 as <-.
  split; [exact E|]. split; [exact P|]. exists v. split; [exact E2|]. exact (pages_back pages v Z A).
Qed.
Lemma pages_self pages : clean_pages pages -> pages_of (pdf_value pages) = Some pages.
Proof. intros Z. exact (pages_back pages _ Z (alike_same _ _)). Qed.

(** * Paths *)
(* how many "/" there are *)
Fixpoint slashes (p : pystr) : nat := match p with [] => 0 | c :: t => (if N.eqb c 47 then 1 else 0) + slashes t end.
Lemma slashes_app a b : slashes (a ++ b) = (slashes a + slashes b)%nat.
Proof. induction a as [|c a IH]; [reflexivity|]. cbn [app slashes]. rewrite IH. lia. Qed.
Lemma slashes_none a : ~ In 47%N a -> slashes a = 0%nat.
Proof. induction a as [|c a IH]; [reflexivity|]. intros N. cbn [slashes]. destruct (N.eqb_spec c 47) as [->|_]; [destruct N; left; reflexivity|]. rewrite IH; [reflexivity|]. intros I. apply N. right. exact I. Qed.
Lemma parents_slashes p : forall b q, In q (path_parents b p) -> (slashes q < slashes b + slashes p)%nat.
Proof.
  induction p as [|c p IH]; intros b q I; [destruct I|]. cbn [path_parents slashes] in *. destruct (N.eqb c 47) eqn:E; cbn [app] in I.
  - destruct I as [<-|I]; [lia|]. apply IH in I. rewrite slashes_app in I. cbn [slashes] in I. rewrite E in I. lia.
  - apply IH in I. rewrite slashes_app in I. cbn [slashes] in I. rewrite E in I. lia.
Qed.
Lemma dirname_at u c t : c <> 47%N -> ~ In 47%N t -> path_dirname (u ++ [c] ++ 47%N :: t) = u ++ [c].
Proof.
  intros C T. replace (u ++ [c] ++ 47%N :: t) with ((u ++ [c; 47%N]) ++ t) by (rewrite <- app_assoc; reflexivity). rewrite dirname_suffix by exact T. unfold path_dirname.
  assert (E : N.eqb c 47 = false) by (apply N.eqb_neq; exact C).
  rewrite rev_app_distr. cbn [rev app drop_while N.eqb Pos.eqb negb]. rewrite rev_involutive, <- app_assoc. cbn [app].
  assert (A : forallb (N.eqb 47) (u ++ [c; 47%N]) = false).
  { rewrite forallb_app. cbn [forallb]. rewrite (N.eqb_sym 47 c), E. cbn. apply Bool.andb_false_r. }
  rewrite A, rev_app_distr. cbn [rev app drop_while]. rewrite N.eqb_refl, (N.eqb_sym 47 c), E. cbn [rev]. now rewrite rev_involutive.
Qed.
Lemma int_last i : exists u c, str_of_int i = u ++ [c] /\ c <> 47%N.
Proof.
  destruct (str_of_int i) as [|c0 t] eqn:E using rev_ind.
  - exfalso. pose proof (str_of_int_inj i (i + 10)) as H. unfold str_of_int in E. destruct (i <? 0); [discriminate|]. pose proof (dec_N_val (Z.to_N i)) as V. rewrite E in V. cbn in V.
    clear H. destruct (Z.to_N i) eqn:Ez; [|discriminate]. rewrite ?Ez in E. vm_compute in E. discriminate.
  - exists t, c0. split; [reflexivity|]. intros ->. apply (int_no_slash i). rewrite E. apply in_or_app. right. left. reflexivity.
Qed.
Lemma join_base cache : exists base, forall n, relative n -> path_join cache n = base ++ n.
Proof.
  unfold relative, path_join. destruct (rev cache) as [|c t]; [exists []; intros n ->; reflexivity|]. destruct (N.eqb c 47); [exists cache; intros n ->; reflexivity|].
  exists (cache ++ u8 "/"). intros n ->. now rewrite <- app_assoc.
Qed.
Section paths.
Variable cache : pystr.
Lemma issue_slashes i j : slashes (issue_path cache i) = slashes (issue_path cache j) /\ slashes (lines_path cache i) = slashes (issue_path cache j).
Proof.
  unfold issue_path, lines_path. destruct (join_base cache) as (base & B). rewrite !B by (apply id_relative || apply parsed_relative). rewrite !slashes_app. unfold issue_cache_id. rewrite !slashes_app.
  rewrite !(slashes_none (str_of_int _)) by apply int_no_slash. split; reflexivity.
Qed.
Lemma dirs_slashes i q : In q (issue_dirs cache i) -> (slashes q < slashes (issue_path cache i))%nat.
Proof.
  unfold issue_dirs, above. assert (D : (slashes (path_dirname (issue_path cache i)) < slashes (issue_path cache i))%nat).
  { unfold issue_path. destruct (join_base cache) as (base & B). rewrite B by apply id_relative. unfold issue_cache_id. destruct (int_last (fst i)) as (u & c & E & C). rewrite E.
    match goal with |- (slashes (path_dirname ?x) < _)%nat => replace x with ((base ++ u8 "MK/" ++ u) ++ [c] ++ 47%N :: (str_of_int (snd i) ++ u8 ".pdf")) by (rewrite <- !app_assoc; reflexivity) end.
    rewrite dirname_at; [|exact C|].
    - rewrite !slashes_app. cbn [slashes]. rewrite N.eqb_refl. lia.
    - intros I. apply in_app_or in I as [I|I]; [exact (int_no_slash _ I)|vm_compute in I; intuition discriminate]. }
  intros [<-|I]; [exact D|]. apply parents_slashes in I. cbn [slashes plus] in I. lia.
Qed.
Lemma file_no_dir i j q : In q (issue_dirs cache j) -> q <> issue_path cache i /\ q <> lines_path cache i.
Proof. intros I. apply dirs_slashes in I. destruct (issue_slashes i j) as [E1 E2]. split; intros ->; lia. Qed.
Lemma file_not_above i q : In q (above cache) -> q <> issue_path cache i /\ q <> lines_path cache i.
Proof.
  intros I. assert (L : (List.length q <= List.length cache)%nat) by (destruct I as [<-|I]; [lia|]; apply parents_shorter in I; cbn [List.length plus] in I; exact I).
  assert (G : forall n, relative n -> (List.length cache + List.length n <= List.length (path_join cache n))%nat).
  { intros n R. unfold relative in R. unfold path_join. rewrite R. rewrite <- (rev_involutive cache) at 1. destruct (rev cache) as [|c t] eqn:E; [cbn; lia|]. rewrite <- E, rev_involutive. destruct (N.eqb c 47); rewrite !app_length; cbn [List.length]; lia. }
  pose proof (G _ (id_relative (fst i) (snd i))) as G1. pose proof (G _ (parsed_relative (fst i) (snd i))) as G2. unfold issue_path, lines_path. rewrite app_length in G2.
  assert (K : (0 < List.length (issue_cache_id (fst i) (snd i)))%nat) by (unfold issue_cache_id; cbn; lia).
  split; intros ->; lia.
Qed.
Lemma path_inj i j : issue_path cache i = issue_path cache j -> i = j.
Proof. intros E. apply join_inj in E; [|apply id_relative|apply id_relative]. apply id_inj in E as [E1 E2]. destruct i, j. cbn in *. congruence. Qed.
Lemma lines_inj i j : lines_path cache i = lines_path cache j -> i = j.
Proof. intros E. apply join_inj in E; [|apply parsed_relative|apply parsed_relative]. apply app_inv_tail in E. apply id_inj in E as [E1 E2]. destruct i, j. cbn in *. congruence. Qed.
Lemma path_not_lines i j : issue_path cache i <> lines_path cache j.
Proof. intros E. apply join_inj in E; [|apply id_relative|apply parsed_relative]. exact (parsed_differs _ _ _ _ E). Qed.
Lemma lines_dirname i : path_dirname (lines_path cache i) = path_dirname (issue_path cache i).
Proof. apply parsed_dirname. Qed.
End paths.
