(* Proofs about the conversion of acts. *)
From Coq Require Import Lia Floats.SpecFloat.
From Coq Require Import ZifyBool ZifyNat ZifyN.
From Verif Require Import PyBase PyBaseFacts LineModel DateModel RefModel TreeModel TreeSpec TreeProofs
  D2oModel D2oSpec D2oProofs D2oProofs2 D2oProofs3 D2oHun D2oHunSpec D2oHunProofs.

(** * Values of the right types *)

Lemma in_subclasses c d : existsb (str_eqb d) (c_subclasses (class_of_id ct c)) = true -> descends ct c d.
Proof.
  intros H. apply existsb_exists in H as (e & I & E). apply str_eqb_eq in E. subst e. exact (descends_step ct c d d I (descends_refl ct d)).
Qed.
Lemma sae_descends k : descends ct (u8 "SubArticleElement") (kind_name k).
Proof. apply in_subclasses. destruct k; reflexivity. Qed.
Lemma struct_descends k : descends ct (u8 "StructuralElement") (struct_name k).
Proof. apply in_subclasses. destruct k; reflexivity. Qed.

Lemma typed_opt {A} (f : A -> value) (o : option A) t : (forall x, o = Some x -> typed ct (f x) t) -> typed ct (opt_value f o) (optional t).
Proof.
  intros H. destruct o as [x|]; cbn.
  - apply (typed_union ct _ t); [left; reflexivity|auto].
  - apply (typed_union ct _ TNone); [right; left; reflexivity|constructor].
Qed.
Lemma typed_opt_str o : typed ct (opt_value str_value o) (optional TStr).
Proof. apply typed_opt. intros x _. constructor. Qed.
Lemma typed_map {A} (f : A -> value) (l : list A) t : (forall x, In x l -> typed ct (f x) t) -> typed ct (tuple_value f l) (TVarTuple t).
Proof. intros H. constructor. apply Forall_forall. intros v I. apply in_map_iff in I as (x & <- & I). auto. Qed.

Ltac fields := repeat (apply Forall2_cons; [apply field_typed; cbn [f_type required defaulted opt_str reference_part]|]); [..|apply Forall2_nil].
Ltac object := eapply typed_obj; [first [apply descends_refl|assumption]|reflexivity|fields|reflexivity].

Lemma part_typed p : typed ct (part_value p) (TClass (u8 "IndentedLinePart")).
Proof. object; constructor. Qed.
Lemma line_typed l : typed ct (line_value l) (TClass (u8 "IndentedLine")).
Proof.
  eapply typed_obj; [apply descends_refl|reflexivity|fields|].
  - apply typed_map. intros p _. apply part_typed.
  - constructor.
  - change (line_check [tuple_value part_value (l_parts l); VFloat (l_margin_right l)] = Ok [tuple_value part_value (l_parts l); VFloat (l_margin_right l)]).
    cbn. replace (forallb _ (map part_value (l_parts l))) with true; [reflexivity|]. symmetry. apply forallb_forall. intros v I.
    apply in_map_iff in I as (p & <- & _). reflexivity.
Qed.
Lemma date_typed d : real_date d -> typed ct (date_value d) DateT.
Proof.
  intros R. eapply typed_obj; [apply descends_refl|reflexivity|fields; constructor|].
  change (date_check [VInt (d_year d); VInt (d_month d); VInt (d_day d)] = Ok [VInt (d_year d); VInt (d_month d); VInt (d_day d)]).
  cbn. unfold real_date in R. rewrite R. reflexivity.
Qed.
Lemma rpart_typed p : typed ct (rpart_value p) (TUnion [TNone; TStr; TTuple [TStr; TStr]]).
Proof.
  destruct p; cbn.
  - apply (typed_union ct _ TNone); [left; reflexivity|constructor].
  - apply (typed_union ct _ TStr); [right; left; reflexivity|constructor].
  - apply (typed_union ct _ (TTuple [TStr; TStr])); [right; right; left; reflexivity|]. repeat constructor.
Qed.
Lemma reference_typed r : typed ct (reference_value r) Reference.
Proof. object; [apply typed_opt_str|apply rpart_typed..]. Qed.
Lemma combo_typed c : typed ct (combo_value c) (TClass (u8 "SubtitleArticleCombo")).
Proof.
  object; [|constructor]. eapply typed_enum; [reflexivity|]. destruct (combo_pos c); [left|right; left|right; right; left]; reflexivity.
Qed.
Lemma sref_typed r : typed ct (sref_value r) (TClass (u8 "StructuralReference")).
Proof. object; [apply typed_opt_str..|]. apply typed_opt. intros c _. apply combo_typed. Qed.
Lemma any_typed r : typed ct (any_value r) any_position.
Proof.
  destruct r; cbn.
  - apply (typed_union ct _ Reference); [left; reflexivity|apply reference_typed].
  - apply (typed_union ct _ (TClass (u8 "StructuralReference"))); [right; left; reflexivity|apply sref_typed].
Qed.
Lemma enforcement_typed e : (forall d, e = EDate d -> real_date d) ->
  typed ct (enforcement_value e) (TUnion [DateT; TClass (u8 "DaysAfterPublication"); TClass (u8 "DayInMonthAfterPublication"); TClass (u8 "SpecialEnforcementDate")]).
Proof.
  intros R. destruct e; cbn.
  - eapply typed_union; [left; reflexivity|]. apply date_typed. auto.
  - eapply typed_union; [right; left; reflexivity|]. object; constructor.
  - eapply typed_union; [right; right; left; reflexivity|]. object; constructor.
  - eapply typed_union; [right; right; right; left; reflexivity|]. object; constructor.
Qed.
Lemma semantic_typed s : (forall d, In d (dates_of s) -> real_date d) -> typed ct (semantic_value s) (TClass (u8 "SemanticData")).
Proof.
  intros R. destruct s; cbn [semantic_value];
    (eapply typed_obj; [apply in_subclasses; reflexivity|reflexivity|fields|reflexivity]).
  - apply any_typed.
  - constructor.
  - apply typed_opt. intros r _. apply reference_typed.
  - apply enforcement_typed. intros d ->. apply R. cbn. left. reflexivity.
  - apply typed_opt. intros d ->. apply date_typed. apply R. cbn. apply in_or_app. right. left. reflexivity.
  - apply reference_typed.
  - constructor.
  - constructor.
  - apply reference_typed.
  - constructor.
  - constructor.
  - apply any_typed.
  - apply typed_opt_str.
Qed.
Lemma outgoing_typed o : typed ct (outgoing_value o) (TClass (u8 "OutgoingReference")).
Proof. object; [constructor|constructor|apply reference_typed]. Qed.
Lemma abbreviation_typed a : typed ct (abbreviation_value a) (TClass (u8 "ActIdAbbreviation")).
Proof. object; constructor. Qed.
Lemma struct_typed e : typed ct (struct_value e) (TClass (u8 "StructuralElement")).
Proof.
  unfold struct_value. pose proof (struct_descends (se_kind e)) as D.
  destruct (se_kind e); cbn [struct_name] in *; (eapply typed_obj; [exact D|reflexivity|fields; constructor|reflexivity]).
Qed.
Lemma quoted_typed ls : typed ct (VObj (u8 "QuotedBlock") [tuple_value line_value ls]) (TClass (u8 "QuotedBlock")).
Proof. object. apply typed_map. intros l _. apply line_typed. Qed.

(** * Elements *)

Lemma child_class_value c : class_name (child_value c) = Some (match class_of c with TSae k => kind_name k | TArticle => u8 "Article" | TQuoted => u8 "QuotedBlock" | TStruct k => struct_name k end).
Proof. destruct c as [[] | [] | |]; reflexivity. Qed.
Lemma object_class n v : is_object_of n v = match class_name v with Some d => str_eqb d n | None => false end.
Proof. destruct v; reflexivity. Qed.
Lemma allowed_value k c : may_contain k (class_of c) -> existsb (fun n => is_object_of n (child_value c)) (allowed_children k) = true.
Proof.
  intros M. apply existsb_exists.
  assert (X : exists n, In n (allowed_children k) /\ class_name (child_value c) = Some n).
  { rewrite child_class_value. inversion M; subst; cbn [allowed_children];
      try (match goal with k : sae_kind |- _ => destruct k; try contradiction end);
      try (match goal with k : struct_kind |- _ => destruct k end);
      (eexists; split; [|reflexivity]; cbn [kind_name struct_name]; repeat (first [left; reflexivity|right])). }
  destruct X as (n & I & E). exists n. split; [exact I|]. rewrite object_class, E. apply str_eqb_refl.
Qed.

Definition sae_values (i t n : option pystr) (cs : option (list child)) (w : option pystr) (m : sae_meta) : list value :=
  [ opt_value str_value i; opt_value str_value t; opt_value str_value n;
    match cs with None => VNone | Some l => VTuple (map child_value l) end;
    opt_value str_value w; opt_value (tuple_value abbreviation_value) (m_abbreviations m);
    opt_value (tuple_value outgoing_value) (m_outgoing m); opt_value (tuple_value semantic_value) (m_semantic m) ].
Lemma opt_is_none {A} (f : A -> value) o : (forall x, is_VNone (f x) = false) -> is_VNone (opt_value f o) = match o with None => true | Some _ => false end.
Proof. intros H. destruct o; cbn; auto. Qed.
Lemma sae_check_ok k i t n cs w m : well_formed (mk_sae k i t n cs w m) -> sae_check k (sae_values i t n cs w m) = Ok (sae_values i t n cs w m).
Proof.
  intros [T N O A]. cbn [s_text s_intro s_children s_wrap_up s_kind] in *. unfold sae_check, sae_values.
  rewrite !(opt_is_none str_value) by reflexivity.
  assert (E2 : (match t with None => true | Some _ => false end
     || (match n with None => true | Some _ => false end) && (match w with None => true | Some _ => false end) && is_VNone (match cs with None => VNone | Some l => VTuple (map child_value l) end)) = true).
  { destruct t; [|reflexivity]. destruct T as (-> & -> & ->); [discriminate|]. reflexivity. }
  rewrite E2. destruct cs as [l|]; [|reflexivity].
  destruct l as [|c0 l]; [congruence|]. cbn [map].
  assert (E1 : forallb (fun c => opt_eqb str_eqb (class_name c) (class_name (child_value c0))) (map child_value l) || mixed_children_allowed k = true).
  { destruct k; try apply orb_true_r; rewrite orb_false_r; apply forallb_forall; intros v I; apply in_map_iff in I as (c & <- & I);
      rewrite !child_class_value, (O ltac:(discriminate) (c0 :: l) c c0 eq_refl (or_intror I) (or_introl eq_refl)); cbn; apply str_eqb_refl. }
  rewrite E1. cbn [bind].
  assert (E3 : forallb (fun c => existsb (fun n => is_object_of n c) (allowed_children k)) (child_value c0 :: map child_value l) = true).
  { apply forallb_forall. intros v I. change (child_value c0 :: map child_value l) with (map child_value (c0 :: l)) in I. apply in_map_iff in I as (c & <- & I).
    apply allowed_value. exact (A _ c eq_refl I). }
  rewrite E3. reflexivity.
Qed.
Lemma kind_checks k : c_check (class_of_id ct (kind_name k)) = sae_check k.
Proof. destruct k; reflexivity. Qed.
Lemma kind_fields k : attrs_class ct (kind_name k) sae_fields.
Proof. destruct k; reflexivity. Qed.

(* the parts of the hypothesis that concern one element *)
Definition sound (c : child) : Prop :=
  match c with
  | ChArticle x => paragraphs_only x
  | ChSae s => forall data d e, m_semantic (s_meta s) = Some data -> In d data -> In e (dates_of d) -> real_date e
  | _ => True
  end.

Combined Scheme built_mutind from built_sae_ind2, built_child_ind2, built_article_ind2.
Lemma article_check_ok i t ps : article_well_formed (mk_article i t ps) ->
  article_check [VStr i; VTuple (map sae_value ps); opt_value str_value t] = Ok [VStr i; VTuple (map sae_value ps); opt_value str_value t].
Proof.
  intros W. cbn [article_check]. rewrite map_length.
  assert (U : forall p, unnamed (sae_value p) = match s_identifier p with None => true | Some _ => false end) by (intros [? [] ? ? ? ? ?]; reflexivity).
  destruct W as [(p & E' & N)|F]; cbn [a_paragraphs] in *.
  - subst ps. cbn. rewrite andb_false_r. reflexivity.
  - replace (existsb unnamed (map sae_value ps)) with false; [reflexivity|]. symmetry. apply not_true_iff_false. intros X.
    apply existsb_exists in X as (v & I & V). apply in_map_iff in I as (p & <- & I). rewrite U in V.
    rewrite Forall_forall in F. specialize (F p I). destruct (s_identifier p); congruence.
Qed.

Lemma elements_typed :
  (forall s, built_sae s -> sound (ChSae s) -> (forall c, inside_sae c s -> sound c) -> typed ct (sae_value s) (TClass (kind_name (s_kind s)))) /\
  (forall c, built_child c -> sound c -> (forall d, inside_child_of d c -> sound d) -> typed ct (child_value c) SubArticleChildType) /\
  (forall a, built_article a -> sound (ChArticle a) -> (forall c, inside_article c a -> sound c) -> typed ct (article_value a) (TClass (u8 "Article"))).
Proof.
  assert (UP : forall s, typed ct (sae_value s) (TClass (kind_name (s_kind s))) -> typed ct (sae_value s) (TClass (u8 "SubArticleElement"))).
  { intros [k i t n cs w m] H. cbn in *. inversion H; subst. eapply typed_obj; [|eassumption..].
    apply sae_descends. }
  apply built_mutind; cbn beta.
  - intros k i t n cs w m s BC IH E SE SO. destruct (proj1 (new_sae_ok _ _ _ _ _ _ _ _) E) as (-> & W). cbn [s_kind sae_value].
    eapply typed_obj; [apply descends_refl|apply kind_fields| |rewrite kind_checks; exact (sae_check_ok k i t n cs w m W)].
    unfold sae_fields. fields.
    + apply typed_opt_str.
    + apply typed_opt_str.
    + apply typed_opt_str.
    + destruct cs as [l|]; [|apply (typed_union ct _ TNone); [right; left; reflexivity|constructor]].
      eapply typed_union; [left; reflexivity|]. apply typed_map. intros c I. apply (IH l c eq_refl I).
      * exact (SO _ (inside_child (mk_sae k i t n (Some l) w m) l c eq_refl I)).
      * intros d D. exact (SO _ (inside_deeper (mk_sae k i t n (Some l) w m) l c d eq_refl I D)).
    + apply typed_opt_str.
    + apply typed_opt. intros x _. apply typed_map. intros a _. apply abbreviation_typed.
    + apply typed_opt. intros x _. apply typed_map. intros a _. apply outgoing_typed.
    + apply typed_opt. intros x E'. apply typed_map. intros d I. apply semantic_typed. intros e De. exact (SE x d e E' I De).
  - intros s _ IH SE SO. cbn. eapply typed_union; [right; left; reflexivity|]. apply UP. apply IH; [exact SE|]. intros c D. apply SO. constructor. exact D.
  - intros a _ IH SE SO. cbn. eapply typed_union; [left; reflexivity|]. apply IH; [exact SE|]. intros c D. apply SO. constructor. exact D.
  - intros ls _ _. cbn. eapply typed_union; [right; right; left; reflexivity|]. apply quoted_typed.
  - intros e _ _. cbn. eapply typed_union; [right; right; right; left; reflexivity|]. apply struct_typed.
  - intros i t ps a BP IH E SE SO. destruct (proj1 (new_article_ok _ _ _ _) E) as (-> & W). cbn [article_value].
    eapply typed_obj; [apply descends_refl|reflexivity|fields|].
      + constructor.
      + apply typed_map. intros p I. replace (u8 "Paragraph") with (kind_name (s_kind p)).
        * apply IH; [exact I|exact (SO _ (inside_paragraph (mk_article i t ps) p I))|]. intros c IC. exact (SO _ (inside_paragraph_deeper (mk_article i t ps) p c I IC)).
        * cbn in SE. unfold paragraphs_only in SE. rewrite Forall_forall in SE. rewrite (SE p I). reflexivity.
      + apply typed_opt_str.
      + exact (article_check_ok i t ps W).
Qed.

Lemma in_act_child a x c : In (AArticle x) (act_children a) -> inside_article c x -> in_act a c.
Proof. intros I H. exists x. auto. Qed.
Lemma in_act_article a x : In (AArticle x) (act_children a) -> in_act a (ChArticle x).
Proof. intros I. exists x. auto. Qed.

Lemma act_typed a : writable a -> typed ct (act_value a) (TClass (u8 "Act")).
Proof.
  intros [B P R D]. assert (SO : forall c, in_act a c -> sound c).
  { intros c I. destruct c; cbn; auto. intros data d e E I1 I2. exact (D _ data d e I E I1 I2). }
  object; [constructor|apply date_typed; exact R|constructor|constructor|].
  apply typed_map. intros c I. destruct c as [e|x]; cbn [act_child_value].
  - eapply typed_union; [left; reflexivity|]. apply struct_typed.
  - eapply typed_union; [right; left; reflexivity|]. apply (proj2 (proj2 elements_typed)).
    + exact (proj1 (B x I)).
    + exact (SO _ (in_act_article a x I)).
    + intros c C. exact (SO _ (in_act_child a x c I C)).
Qed.
Lemma raw_typed i d s b : real_date d -> typed ct (raw_value i d s b) (TClass (u8 "MagyarKozlonyLawRawText")).
Proof. intros R. object; [constructor|apply date_typed; exact R|constructor|]. apply typed_map. intros l _. apply line_typed. Qed.
Lemma pdf_typed pages : typed ct (pdf_value pages) (TClass (u8 "PdfOfLines")).
Proof.
  eapply typed_obj; [apply descends_refl|reflexivity|fields|reflexivity]. constructor. apply Forall_forall. intros v I.
  apply in_map_iff in I as (ls & <- & _). eapply typed_obj; [apply descends_refl|reflexivity|fields|reflexivity].
  constructor. apply Forall_forall. intros v I. apply in_map_iff in I as (l & <- & _). apply line_typed.
Qed.
Lemma known_type c : known c = true -> ty_ok ct (TClass c).
Proof.
  intros K. assert (F : Forall (fun c => known c = true) [c]) by (constructor; [exact K|constructor]).
  constructor; [exact (known_attrs _ F)|exact (known_names _ F)].
Qed.

(** * Without NaN *)

Lemma wn_opt {A} (f : A -> value) o : (forall x, o = Some x -> without_nan (f x)) -> without_nan (opt_value f o).
Proof. destruct o; cbn; intros H; [auto|constructor]. Qed.
Lemma wn_map {A} (f : A -> value) l : (forall x, In x l -> without_nan (f x)) -> Forall without_nan (map f l).
Proof. intros H. apply Forall_forall. intros v I. apply in_map_iff in I as (x & <- & I). auto. Qed.
Lemma wn_opt_str o : without_nan (opt_value str_value o).
Proof. apply wn_opt. intros x _. constructor. Qed.
Ltac wn_fields := apply wn_obj; repeat apply Forall_cons; [..|apply Forall_nil]; try (constructor; fail); try apply wn_opt_str.

Lemma line_wn l : numbers l -> without_nan (line_value l).
Proof.
  intros (M & P). wn_fields; [|constructor; exact M]. constructor. apply wn_map. intros p I. rewrite Forall_forall in P.
  wn_fields. constructor. exact (P p I).
Qed.
Lemma date_wn d : without_nan (date_value d).
Proof. wn_fields. Qed.
Lemma rpart_wn p : without_nan (rpart_value p).
Proof. destruct p; repeat constructor. Qed.
Lemma reference_wn r : without_nan (reference_value r).
Proof. wn_fields; apply rpart_wn. Qed.
Lemma sref_wn r : without_nan (sref_value r).
Proof. wn_fields. apply wn_opt. intros c _. wn_fields. Qed.
Lemma any_wn r : without_nan (any_value r).
Proof. destruct r; [apply reference_wn|apply sref_wn]. Qed.
Lemma semantic_wn s : without_nan (semantic_value s).
Proof.
  destruct s; cbn; wn_fields; try apply any_wn; try apply reference_wn.
  - apply wn_opt. intros r _. apply reference_wn.
  - destruct date_; cbn; [apply date_wn|wn_fields..].
  - apply wn_opt. intros r _. apply date_wn.
Qed.
Lemma struct_wn e : without_nan (struct_value e).
Proof. unfold struct_value. destruct (se_kind e); wn_fields. Qed.

Definition lines_are (P : line -> Prop) (c : child) : Prop := match c with ChQuoted ls => Forall P ls | _ => True end.

Lemma elements_wn :
  (forall s, built_sae s -> (forall c, inside_sae c s -> lines_are numbers c) -> without_nan (sae_value s)) /\
  (forall c, built_child c -> lines_are numbers c -> (forall d, inside_child_of d c -> lines_are numbers d) -> without_nan (child_value c)) /\
  (forall a, built_article a -> (forall c, inside_article c a -> lines_are numbers c) -> without_nan (article_value a)).
Proof.
  apply built_mutind; cbn beta.
  - intros k i t n cs w m s BC IH E SO. destruct (proj1 (new_sae_ok _ _ _ _ _ _ _ _) E) as (-> & _). cbn [sae_value]. wn_fields.
    + destruct cs as [l|]; [|constructor]. constructor. apply wn_map. intros c I. apply (IH l c eq_refl I).
      * exact (SO _ (inside_child (mk_sae k i t n (Some l) w m) l c eq_refl I)).
      * intros d D. exact (SO _ (inside_deeper (mk_sae k i t n (Some l) w m) l c d eq_refl I D)).
    + apply wn_opt. intros x _. constructor. apply wn_map. intros a _. wn_fields.
    + apply wn_opt. intros x _. constructor. apply wn_map. intros a _. wn_fields. apply reference_wn.
    + apply wn_opt. intros x _. constructor. apply wn_map. intros a _. apply semantic_wn.
  - intros s _ IH _ SO. apply IH. intros c D. apply SO. constructor. exact D.
  - intros a _ IH _ SO. apply IH. intros c D. apply SO. constructor. exact D.
  - intros ls L _. cbn in *. wn_fields. constructor. apply wn_map. intros l I. rewrite Forall_forall in L. apply line_wn. auto.
  - intros e _ _. apply struct_wn.
  - intros i t ps a BP IH E SO. destruct (proj1 (new_article_ok _ _ _ _) E) as (-> & _). cbn [article_value]. wn_fields.
    constructor. apply wn_map. intros p I. apply (IH p I). intros c C. exact (SO _ (inside_paragraph_deeper (mk_article i t ps) p c I C)).
Qed.

Lemma act_wn a : built_act a -> (forall l, line_in_act a l -> numbers l) -> without_nan (act_value a).
Proof.
  intros B N. wn_fields; [apply date_wn|]. constructor. apply wn_map. intros c I. destruct c as [e|x]; cbn; [apply struct_wn|].
  apply (proj2 (proj2 elements_wn)); [exact (proj1 (B x I))|]. intros c C. destruct c; cbn; auto. apply Forall_forall. intros l L. apply N.
  exists lines. split; [exact (in_act_child a x _ I C)|exact L].
Qed.
Lemma raw_wn i d s b : Forall numbers b -> without_nan (raw_value i d s b).
Proof. intros N. wn_fields; [apply date_wn|]. constructor. apply wn_map. rewrite Forall_forall in N. intros l I. apply line_wn. auto. Qed.
Lemma pdf_wn pages : Forall (Forall numbers) pages -> without_nan (pdf_value pages).
Proof.
  intros N. wn_fields. constructor. apply wn_map. rewrite Forall_forall in N. intros ls I. wn_fields. constructor. apply wn_map.
  specialize (N ls I). rewrite Forall_forall in N. intros l I'. apply line_wn. auto.
Qed.

(** * No defaults in disguise *)

Lemma tidy_opt {A} (f : A -> value) o : (forall x, o = Some x -> tidy ct (f x)) -> tidy ct (opt_value f o).
Proof. destruct o; cbn; intros H; [auto|constructor]. Qed.
Lemma tidy_map {A} (f : A -> value) l : (forall x, In x l -> tidy ct (f x)) -> Forall (tidy ct) (map f l).
Proof. intros H. apply Forall_forall. intros v I. apply in_map_iff in I as (x & <- & I). auto. Qed.
Lemma tidy_opt_str o : tidy ct (opt_value str_value o).
Proof. apply tidy_opt. intros x _. constructor. Qed.
Ltac own_default :=
  intros ? X Y; cbn [f_default required defaulted opt_str reference_part] in X;
  first [ discriminate X
        | injection X as <-; apply eq_none in Y; exact Y
        | injection X as <-; match goal with |- VBool ?b = _ => destruct b; [discriminate Y|reflexivity] end
        | injection X as <-; cbn in Y; apply Z.eqb_eq in Y; congruence ].
Ltac tidy_fields :=
  eapply tidy_obj; [reflexivity|repeat apply Forall_cons; [..|apply Forall_nil]; try (constructor; fail); try apply tidy_opt_str|
                    repeat apply Forall2_cons; [..|apply Forall2_nil]; try own_default].

Lemma int_eq_float_0 f : int_eq_float 0 f = true -> exists s, f = S754_zero s.
Proof.
  destruct f as [s|s| |s m e]; cbn -[Z.mul Z.pow Z.leb Z.opp Z.eqb]; try discriminate; [eauto|].
  intros H. exfalso. destruct (0 <=? e)%Z eqn:E.
  - apply Z.eqb_eq in H. symmetry in H. apply Z.mul_eq_0 in H as [H|H]; [destruct s; discriminate|]. pose proof (Z.pow_pos_nonneg 2 e). lia.
  - apply Z.eqb_eq in H. destruct s; lia.
Qed.
Lemma line_tidy l : with_margin l -> tidy ct (line_value l).
Proof.
  intros M. tidy_fields.
  - constructor. apply tidy_map. intros p I. tidy_fields.
  - intros d X Y. cbn [f_default] in X. injection X as <-. cbn in Y. apply int_eq_float_0 in Y as (s & E). exfalso. exact (M s E).
Qed.
Lemma date_tidy d : tidy ct (date_value d).
Proof. tidy_fields. Qed.
Lemma rpart_tidy p : tidy ct (rpart_value p).
Proof. destruct p; repeat constructor. Qed.
Lemma reference_tidy r : tidy ct (reference_value r).
Proof. tidy_fields; apply rpart_tidy. Qed.
Lemma sref_tidy r : tidy ct (sref_value r).
Proof. tidy_fields. apply tidy_opt. intros c _. tidy_fields. Qed.
Lemma any_tidy r : tidy ct (any_value r).
Proof. destruct r; [apply reference_tidy|apply sref_tidy]. Qed.
Lemma semantic_tidy s : tidy ct (semantic_value s).
Proof.
  destruct s; cbn; tidy_fields; try apply any_tidy; try apply reference_tidy.
  - apply tidy_opt. intros r _. apply reference_tidy.
  - destruct date_; cbn; [apply date_tidy|tidy_fields..].
  - apply tidy_opt. intros r _. apply date_tidy.
Qed.
Lemma struct_tidy e : tidy ct (struct_value e).
Proof. unfold struct_value. destruct (se_kind e); tidy_fields. Qed.

Lemma elements_tidy :
  (forall s, built_sae s -> (forall c, inside_sae c s -> lines_are with_margin c) -> tidy ct (sae_value s)) /\
  (forall c, built_child c -> lines_are with_margin c -> (forall d, inside_child_of d c -> lines_are with_margin d) -> tidy ct (child_value c)) /\
  (forall a, built_article a -> (forall c, inside_article c a -> lines_are with_margin c) -> tidy ct (article_value a)).
Proof.
  apply built_mutind; cbn beta.
  - intros k i t n cs w m s BC IH E SO. destruct (proj1 (new_sae_ok _ _ _ _ _ _ _ _) E) as (-> & _). cbn [sae_value].
    apply (tidy_obj ct (kind_name k) sae_fields); [apply kind_fields| |unfold sae_fields; repeat apply Forall2_cons; [..|apply Forall2_nil]; own_default].
    repeat apply Forall_cons; [..|apply Forall_nil]; try apply tidy_opt_str.
    + destruct cs as [l|]; [|constructor]. constructor. apply tidy_map. intros c I. apply (IH l c eq_refl I).
      * exact (SO _ (inside_child (mk_sae k i t n (Some l) w m) l c eq_refl I)).
      * intros d D. exact (SO _ (inside_deeper (mk_sae k i t n (Some l) w m) l c d eq_refl I D)).
    + apply tidy_opt. intros x _. constructor. apply tidy_map. intros a _. tidy_fields.
    + apply tidy_opt. intros x _. constructor. apply tidy_map. intros a _. tidy_fields. apply reference_tidy.
    + apply tidy_opt. intros x _. constructor. apply tidy_map. intros a _. apply semantic_tidy.
  - intros s _ IH _ SO. apply IH. intros c D. apply SO. constructor. exact D.
  - intros a _ IH _ SO. apply IH. intros c D. apply SO. constructor. exact D.
  - intros ls L _. cbn in *. tidy_fields. constructor. apply tidy_map. intros l I. rewrite Forall_forall in L. apply line_tidy. auto.
  - intros e _ _. apply struct_tidy.
  - intros i t ps a BP IH E SO. destruct (proj1 (new_article_ok _ _ _ _) E) as (-> & _). cbn [article_value]. tidy_fields.
    constructor. apply tidy_map. intros p I. apply (IH p I). intros c C. exact (SO _ (inside_paragraph_deeper (mk_article i t ps) p c I C)).
Qed.

Lemma act_tidy a : built_act a -> (forall l, line_in_act a l -> with_margin l) -> tidy ct (act_value a).
Proof.
  intros B N. tidy_fields; [apply date_tidy|]. constructor. apply tidy_map. intros c I. destruct c as [e|x]; cbn; [apply struct_tidy|].
  apply (proj2 (proj2 elements_tidy)); [exact (proj1 (B x I))|]. intros c C. destruct c; cbn; auto. apply Forall_forall. intros l L. apply N.
  exists lines. split; [exact (in_act_child a x _ I C)|exact L].
Qed.
Lemma raw_tidy i d s b : Forall with_margin b -> tidy ct (raw_value i d s b).
Proof. intros N. tidy_fields; [apply date_tidy|]. constructor. apply tidy_map. rewrite Forall_forall in N. intros l I. apply line_tidy. auto. Qed.
Lemma pdf_tidy pages : Forall (Forall with_margin) pages -> tidy ct (pdf_value pages).
Proof.
  intros N. tidy_fields. constructor. apply tidy_map. rewrite Forall_forall in N. intros ls I. tidy_fields. constructor. apply tidy_map.
  specialize (N ls I). rewrite Forall_forall in N. intros l I'. apply line_tidy. auto.
Qed.
