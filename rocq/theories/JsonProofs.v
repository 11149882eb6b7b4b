(* The data that to_dict makes of acts. *)
From Coq Require Import Lia Floats.SpecFloat.
From Coq Require Import ZifyBool ZifyNat ZifyN.
From Verif Require Import PyBase PyBaseFacts LineModel DateModel RefModel TreeModel D2oModel D2oHun D2oSpec D2oProofs D2oProofs2 JsonSpec.
Local Open Scope Z_scope.

Notation F := (to_dict hun_table).
Notation D := (dump_fields hun_table F).
Notation chosen t v := (c <- create hun_table t ;; choose_to_dict hun_table c v).

Lemma obj_step t c b tag vals kvs :
  chosen t (VObj c vals) = Ok (BAttrs b, tag) ->
  D (fields_of hun_table b) (fields_of hun_table c) vals = Ok kvs ->
  F (VObj c vals) t = add_tag tag (VDict kvs).
Proof.
  intros H E. rewrite to_dict_eq. destruct (create hun_table t) as [x|]; cbn [bind] in *; [|discriminate]. rewrite H. cbn [bind].
  unfold dump. rewrite E. reflexivity.
Qed.
Lemma tag_last n kvs : ~ In TYPE_KEY (map fst kvs) -> add_tag (Some n) (VDict kvs) = Ok (named n kvs).
Proof. intros H. cbn [add_tag]. rewrite dict_set_new by exact H. reflexivity. Qed.
Lemma noop_step t v x : chosen t v = Ok (BNoop x, None) -> F v t = Ok v.
Proof. intros H. rewrite to_dict_eq. destruct (create hun_table t) as [c|]; cbn [bind] in *; [|discriminate]. rewrite H. reflexivity. Qed.
Lemma dump_all_map {A} (G : value -> res value) (f g : A -> value) l : (forall x, In x l -> G (f x) = Ok (g x)) ->
  dump_all G (map f l) = Ok (map g l).
Proof.
  intros H. induction l as [|x l IH]; [reflexivity|]. cbn [map dump_all]. rewrite H by now left. cbn [bind].
  fold (dump_all G). rewrite IH by (intros y Hy; apply H; now right). reflexivity.
Qed.
Lemma tuple_step {A} t u (f g : A -> value) l : chosen t (VTuple (map f l)) = Ok (BVarTuple u, None) ->
  (forall x, In x l -> F (f x) u = Ok (g x)) -> F (tuple_value f l) t = Ok (list_json g l).
Proof.
  intros H E. unfold tuple_value. rewrite to_dict_eq. destruct (create hun_table t) as [c|]; cbn [bind] in *; [|discriminate].
  rewrite H. cbn [bind dump]. rewrite (dump_all_map _ f g) by exact E. reflexivity.
Qed.
Lemma list_step {A} t u (f g : A -> value) l : chosen t (VList (map f l)) = Ok (BList u, None) ->
  (forall x, In x l -> F (f x) u = Ok (g x)) -> F (VList (map f l)) t = Ok (list_json g l).
Proof.
  intros H E. rewrite to_dict_eq. destruct (create hun_table t) as [c|]; cbn [bind] in *; [|discriminate].
  rewrite H. cbn [bind dump]. rewrite (dump_all_map _ f g) by exact E. reflexivity.
Qed.

(** Fields, one after the other *)
Section Fields.
Context (all : list field).
Lemma no_fields : D all [] [] = Ok []. Proof. reflexivity. Qed.
Lemma required_step n t v w fs r kvs : find_field n all = Some (required n t) -> F v t = Ok w -> D all fs r = Ok kvs ->
  D all (required n t :: fs) (v :: r) = Ok ([(n, w)] ++ kvs).
Proof. intros H E K. cbn [dump_fields is_default required f_default f_name]. rewrite H. cbn [f_type required]. rewrite E. cbn [bind]. fold D. rewrite K. reflexivity. Qed.
Lemma any_step n t d v w (out : bool) fs r kvs : find_field n all = Some (defaulted n t d) -> py_eq hun_table v d = out ->
  (out = false -> F v t = Ok w) -> D all fs r = Ok kvs ->
  D all (defaulted n t d :: fs) (v :: r) = Ok ((if out then [] else [(n, w)]) ++ kvs).
Proof.
  intros H E W K. cbn [dump_fields is_default defaulted f_default f_name]. rewrite E. destruct out; [exact K|].
  rewrite H. cbn [f_type defaulted]. rewrite (W eq_refl). cbn [bind]. fold D. rewrite K. reflexivity.
Qed.
Lemma opt_step {A} n t (f g : A -> value) o fs r kvs : find_field n all = Some (defaulted n t VNone) ->
  (forall x, o = Some x -> py_eq hun_table (f x) VNone = false /\ F (f x) t = Ok (g x)) -> D all fs r = Ok kvs ->
  D all (defaulted n t VNone :: fs) (opt_value f o :: r) = Ok (opt_key n g o ++ kvs).
Proof.
  intros H E K. destruct o as [x|]; cbn [opt_value opt_key].
  - destruct (E x eq_refl) as [E1 E2]. exact (any_step n t VNone (f x) (g x) false fs r kvs H E1 (fun _ => E2) K).
  - exact (any_step n t VNone VNone VNone true fs r kvs H eq_refl (fun e => ltac:(discriminate e)) K).
Qed.
Lemma str_step n o fs r kvs : find_field n all = Some (opt_str n) -> D all fs r = Ok kvs ->
  D all (opt_str n :: fs) (opt_value str_value o :: r) = Ok (opt_key n VStr o ++ kvs).
Proof.
  intros H K. apply (opt_step n _ str_value VStr o fs r kvs H); [|exact K]. intros x _. split; [reflexivity|].
  apply (noop_step _ _ YStr). vm_compute. reflexivity.
Qed.
Lemma flag_step n b fs r kvs : find_field n all = Some (defaulted n TBool (VBool false)) -> D all fs r = Ok kvs ->
  D all (defaulted n TBool (VBool false) :: fs) (VBool b :: r) = Ok (flag_key n b ++ kvs).
Proof.
  intros H K. pose proof (any_step n TBool (VBool false) (VBool b) (VBool b) (Bool.eqb b false) fs r kvs H eq_refl) as S.
  rewrite S; [destruct b; reflexivity| |exact K]. intros _. apply (noop_step _ _ YBool). vm_compute. reflexivity.
Qed.
Lemma count_step n v fs r kvs : find_field n all = Some (defaulted n TInt (VInt 1)) -> D all fs r = Ok kvs ->
  D all (defaulted n TInt (VInt 1) :: fs) (VInt v :: r) = Ok (count_key n v ++ kvs).
Proof.
  intros H K. pose proof (any_step n TInt (VInt 1) (VInt v) (VInt v) (v =? 1) fs r kvs H eq_refl) as S.
  rewrite S; [unfold count_key; destruct (v =? 1); reflexivity| |exact K]. intros _. apply (noop_step _ _ YInt). vm_compute. reflexivity.
Qed.
End Fields.
Ltac prim y := apply (noop_step _ _ y); vm_compute; reflexivity.
Ltac found := vm_compute; reflexivity.
Ltac fields c := let x := eval vm_compute in (fields_of hun_table c) in change (fields_of hun_table c) with x.

(** * The objects *)
Ltac str := prim YStr.
Ltac int := prim YInt.
Ltac req tac := eapply required_step; [found|tac|].
Ltac ostr := eapply str_step; [found|].
Ltac untagged := unfold TYPE_KEY; cbn [map fst app In]; intros H; repeat (destruct H as [H|H]; [discriminate H|]); exact H.

Definition date_fields : list field := [required (u8 "year") TInt; required (u8 "month") TInt; required (u8 "day") TInt].
Lemma date_dump d : D (fields_of hun_table (u8 "Date")) (fields_of hun_table (u8 "Date")) [VInt (d_year d); VInt (d_month d); VInt (d_day d)] = Ok (date_json d).
Proof.
  change (fields_of hun_table (u8 "Date")) with date_fields. unfold date_fields at 2.
  req int. req int. req int. apply no_fields.
Qed.
Lemma date_plain d : F (date_value d) DateT = Ok (VDict (date_json d)).
Proof. unfold date_value. erewrite (obj_step DateT _ (u8 "Date") None); [|found|apply (date_dump d)]. reflexivity. Qed.

Lemma part_dump p : F (part_value p) (TClass (u8 "IndentedLinePart")) = Ok (part_json p).
Proof.
  unfold part_value. erewrite obj_step; [|found|].
  2: { change (fields_of hun_table (u8 "IndentedLinePart")) with
         [required (u8 "dx") TFloat; required (u8 "content") TStr; defaulted (u8 "bold") TBool (VBool false)].
       req ltac:(prim YFloat). req str. eapply flag_step; [found|]. apply no_fields. }
  cbn [add_tag]. unfold part_json. now rewrite app_nil_r.
Qed.
Lemma zero_eq f : int_eq_float 0 f = is_zero f.
Proof.
  destruct f as [s|s| |s m e]; try reflexivity. cbn [int_eq_float is_zero].
  destruct s; destruct (0 <=? e) eqn:E; try reflexivity; apply Z.eqb_neq; try lia;
    assert (0 < 2 ^ e) by (apply Z.pow_pos_nonneg; lia); nia.
Qed.
Lemma line_dump l : F (line_value l) (TClass (u8 "IndentedLine")) = Ok (line_json l).
Proof.
  unfold line_value. erewrite obj_step; [|found|].
  2: { change (fields_of hun_table (u8 "IndentedLine")) with
         [mk_field (u8 "_parts") (TVarTuple (TClass (u8 "IndentedLinePart"))) (Factory (VTuple [])) true;
          mk_field (u8 "margin_right") TFloat (Default (VInt 0)) false].
       cbn [dump_fields is_default f_default f_name].
       match goal with |- context [find_field ?n ?all] => let r := eval vm_compute in (find_field n all) in change (find_field n all) with r end.
       cbv beta iota. cbn [f_type].
       erewrite (tuple_step _ _ part_value part_json); [|found|intros p _; apply part_dump]. cbn [bind].
       change (py_eq hun_table (VFloat (l_margin_right l)) (VInt 0)) with (int_eq_float 0 (l_margin_right l)). rewrite zero_eq.
       match goal with |- context [find_field ?n ?all] => let r := eval vm_compute in (find_field n all) in change (find_field n all) with r end.
       cbv beta iota. cbn [f_type]. rewrite (noop_step TFloat (VFloat (l_margin_right l)) YFloat) by found. cbn [bind].
       instantiate (1 := (u8 "_parts", list_json part_json (l_parts l)) ::
         if is_zero (l_margin_right l) then [] else [(u8 "margin_right", VFloat (l_margin_right l))]).
       destruct (is_zero (l_margin_right l)); reflexivity. }
  reflexivity.
Qed.

Lemma place_step all n p fs r kvs : find_field n all = Some (reference_part n) -> D all fs r = Ok kvs ->
  D all (reference_part n :: fs) (rpart_value p :: r) = Ok (place_key n p ++ kvs).
Proof.
  intros H K. destruct p as [|i|a b]; cbn [rpart_value place_key].
  - exact (any_step all n _ VNone VNone VNone true fs r kvs H eq_refl (fun e => ltac:(discriminate e)) K).
  - apply (any_step all n _ VNone (VStr i) (VStr i) false fs r kvs H eq_refl); [|exact K]. intros _. str.
  - apply (any_step all n _ VNone (VTuple [VStr a; VStr b]) (VList [VStr a; VStr b]) false fs r kvs H eq_refl); [|exact K]. intros _. vm_compute. reflexivity.
Qed.
Definition reference_fields : list field :=
  [opt_str (u8 "act"); reference_part (u8 "article"); reference_part (u8 "paragraph"); reference_part (u8 "point"); reference_part (u8 "subpoint")].
Lemma reference_dump r : D (fields_of hun_table (u8 "Reference")) (fields_of hun_table (u8 "Reference"))
  [opt_value str_value (r_act r); rpart_value (r_article r); rpart_value (r_paragraph r); rpart_value (r_point r); rpart_value (r_subpoint r)]
  = Ok (reference_json r).
Proof.
  change (fields_of hun_table (u8 "Reference")) with reference_fields. unfold reference_fields at 2. unfold reference_json.
  ostr. do 3 (eapply place_step; [found|]). rewrite <- (app_nil_r (place_key _ (r_subpoint r))). eapply place_step; [found|]. apply no_fields.
Qed.
Lemma opt_key_in {A} n (g : A -> value) o x : In x (map fst (opt_key n g o)) -> x = n.
Proof. destruct o; cbn; intuition congruence. Qed.
Lemma place_key_in n p x : In x (map fst (place_key n p)) -> x = n.
Proof. destruct p; cbn; intuition congruence. Qed.
Lemma flag_key_in n b x : In x (map fst (flag_key n b)) -> x = n.
Proof. destruct b; cbn; intuition congruence. Qed.
Lemma count_key_in n b x : In x (map fst (count_key n b)) -> x = n.
Proof. unfold count_key. destruct (b =? 1); cbn; intuition congruence. Qed.
Ltac no_type_key :=
  let H := fresh in intros H; repeat first
    [ rewrite map_app in H
    | apply in_app_iff in H; destruct H as [H|H]
    | apply opt_key_in in H; discriminate H
    | apply place_key_in in H; discriminate H
    | apply flag_key_in in H; discriminate H
    | apply count_key_in in H; discriminate H
    | destruct H as [H|H]; [discriminate H|]
    | destruct H ].
Lemma reference_no_type r : ~ In TYPE_KEY (map fst (reference_json r)).
Proof. unfold reference_json. no_type_key. Qed.
Lemma reference_plain r t : chosen t (reference_value r) = Ok (BAttrs (u8 "Reference"), None) ->
  F (reference_value r) t = Ok (VDict (reference_json r)).
Proof. intros H. unfold reference_value in *. rewrite (obj_step t _ _ None _ _ H (reference_dump r)). reflexivity. Qed.

Lemma combo_dump c t : chosen t (combo_value c) = Ok (BAttrs (u8 "SubtitleArticleCombo"), None) -> F (combo_value c) t = Ok (combo_json c).
Proof.
  intros H. unfold combo_value in *. erewrite (obj_step t _ _ None _ _ H).
  2: { change (fields_of hun_table (u8 "SubtitleArticleCombo")) with
         [required (u8 "position") (TEnum (u8 "SubtitleArticleComboType")); required (u8 "article_id") TStr].
       req ltac:(instantiate (1 := VStr (position_name (combo_pos c))); destruct (combo_pos c); vm_compute; reflexivity).
       req str. apply no_fields. }
  reflexivity.
Qed.
Definition sref_fields : list field :=
  [opt_str (u8 "act"); opt_str (u8 "book"); opt_str (u8 "part"); opt_str (u8 "title"); opt_str (u8 "chapter");
   opt_str (u8 "subtitle"); defaulted (u8 "special") (TUnion [TClass (u8 "SubtitleArticleCombo"); TNone]) VNone].
Lemma sref_dump r : D (fields_of hun_table (u8 "StructuralReference")) (fields_of hun_table (u8 "StructuralReference"))
    [opt_value str_value (sr_act r); opt_value str_value (sr_book r); opt_value str_value (sr_part r); opt_value str_value (sr_title r);
     opt_value str_value (sr_chapter r); opt_value str_value (sr_subtitle r); opt_value combo_value (sr_special r)]
  = Ok (structural_reference_json r).
Proof.
  change (fields_of hun_table (u8 "StructuralReference")) with sref_fields. unfold sref_fields at 2. unfold structural_reference_json.
  do 6 ostr. rewrite <- (app_nil_r (opt_key _ combo_json _)). eapply opt_step; [found| |apply no_fields].
  intros c _. split; [reflexivity|]. apply combo_dump. found.
Qed.
Lemma any_dump r : F (any_value r) any_position = Ok (any_reference_json r).
Proof.
  destruct r as [r|r]; cbn [any_value any_reference_json].
  - unfold reference_value. erewrite (obj_step any_position _ (u8 "Reference") (Some (u8 "Reference"))); [|found|apply (reference_dump r)].
    apply tag_last, reference_no_type.
  - unfold sref_value. erewrite (obj_step any_position _ (u8 "StructuralReference") (Some (u8 "StructuralReference"))); [|found|apply (sref_dump r)].
    apply tag_last. unfold structural_reference_json. no_type_key.
Qed.

Definition enforcement_type : ty :=
  TUnion [DateT; TClass (u8 "DaysAfterPublication"); TClass (u8 "DayInMonthAfterPublication"); TClass (u8 "SpecialEnforcementDate")].
Lemma enforcement_dump e : F (enforcement_value e) enforcement_type = Ok (enforcement_json e).
Proof.
  destruct e as [d|n|d m|s]; cbn [enforcement_value enforcement_json].
  - unfold date_value. erewrite (obj_step enforcement_type _ (u8 "Date") (Some (u8 "Date"))); [|found|apply (date_dump d)].
    apply tag_last. unfold date_json. no_type_key.
  - erewrite (obj_step enforcement_type _ (u8 "DaysAfterPublication") (Some (u8 "DaysAfterPublication"))); [|found|].
    2: { change (fields_of hun_table (u8 "DaysAfterPublication")) with [defaulted (u8 "days") TInt (VInt 1)]. eapply count_step; [found|]. apply no_fields. }
    rewrite app_nil_r. apply tag_last. no_type_key.
  - erewrite (obj_step enforcement_type _ (u8 "DayInMonthAfterPublication") (Some (u8 "DayInMonthAfterPublication"))); [|found|].
    2: { change (fields_of hun_table (u8 "DayInMonthAfterPublication")) with [required (u8 "day") TInt; defaulted (u8 "months") TInt (VInt 1)].
         req int. eapply count_step; [found|]. apply no_fields. }
    rewrite app_nil_r. cbn [app]. apply tag_last. cbn [map]. no_type_key.
  - erewrite (obj_step enforcement_type _ (u8 "SpecialEnforcementDate") (Some (u8 "SpecialEnforcementDate"))); [|found|].
    2: { change (fields_of hun_table (u8 "SpecialEnforcementDate")) with [required (u8 "description") TStr]. req str. apply no_fields. }
    apply tag_last. no_type_key.
Qed.

Definition SemanticT : ty := TClass (u8 "SemanticData").
Lemma text_change_dump n p o r : In n [u8 "TextAmendment"; u8 "ArticleTitleAmendment"] ->
  F (VObj n [reference_value p; VStr o; VStr r]) SemanticT = Ok (text_change_json n p o r).
Proof.
  intros I. assert (Hn : fields_of hun_table n = text_amendment_fields /\
    chosen SemanticT (VObj n [reference_value p; VStr o; VStr r]) = Ok (BAttrs n, Some n)).
  { cbn [In] in I. destruct I as [<-|[<-|[]]]; split; vm_compute; reflexivity. }
  destruct Hn as [Hf Hc]. erewrite (obj_step _ _ _ _ _ _ Hc).
  2: { rewrite Hf. unfold text_amendment_fields at 2. req ltac:(apply reference_plain; found). req str. req str. apply no_fields. }
  cbn [app]. apply tag_last. no_type_key.
Qed.
Lemma semantic_dump s : F (semantic_value s) SemanticT = Ok (semantic_json s).
Proof.
  destruct s as [p i|p d r|p o r|p o r|p t]; cbn [semantic_value semantic_json].
  - erewrite (obj_step SemanticT _ (u8 "BlockAmendment") (Some (u8 "BlockAmendment"))); [|found|].
    2: { change (fields_of hun_table (u8 "BlockAmendment")) with [required (u8 "position") any_position; defaulted (u8 "pure_insertion") TBool (VBool false)].
         req ltac:(apply any_dump). eapply flag_step; [found|]. apply no_fields. }
    rewrite app_nil_r. cbn [app]. apply tag_last. cbn [map]. no_type_key.
  - erewrite (obj_step SemanticT _ (u8 "EnforcementDate") (Some (u8 "EnforcementDate"))); [|found|].
    2: { change (fields_of hun_table (u8 "EnforcementDate")) with
           [required (u8 "position") (optional Reference); required (u8 "date") enforcement_type; defaulted (u8 "repeal_date") (optional DateT) VNone].
         eapply required_step; [found| |].
         { instantiate (1 := or_null (fun r => VDict (reference_json r)) p). destruct p as [p|]; cbn [opt_value or_null].
           - apply reference_plain. found.
           - apply (noop_step _ _ YNone). found. }
         req ltac:(apply enforcement_dump). eapply (opt_step _ _ _ date_value (fun d => VDict (date_json d))); [found| |apply no_fields].
         intros x _. split; [reflexivity|]. unfold date_value. erewrite (obj_step _ _ (u8 "Date") None); [|found|apply (date_dump x)]. reflexivity. }
    rewrite app_nil_r. apply tag_last. cbn [map app]. no_type_key.
  - apply text_change_dump. now left.
  - apply text_change_dump. right. now left.
  - erewrite (obj_step SemanticT _ (u8 "Repeal") (Some (u8 "Repeal"))); [|found|].
    2: { change (fields_of hun_table (u8 "Repeal")) with [required (u8 "position") any_position; opt_str (u8 "text")].
         req ltac:(apply any_dump). ostr. apply no_fields. }
    rewrite app_nil_r. cbn [app]. apply tag_last. cbn [map]. no_type_key.
Qed.
Lemma outgoing_dump o : F (outgoing_value o) (TClass (u8 "OutgoingReference")) = Ok (outgoing_json o).
Proof.
  unfold outgoing_value. erewrite (obj_step _ _ (u8 "OutgoingReference") None); [|found|].
  2: { change (fields_of hun_table (u8 "OutgoingReference")) with [required (u8 "start_pos") TInt; required (u8 "end_pos") TInt; required (u8 "reference") Reference].
       req int. req int. req ltac:(apply reference_plain; found). apply no_fields. }
  reflexivity.
Qed.
Lemma abbreviation_dump a : F (abbreviation_value a) (TClass (u8 "ActIdAbbreviation")) = Ok (abbreviation_json a).
Proof.
  unfold abbreviation_value. erewrite (obj_step _ _ (u8 "ActIdAbbreviation") None); [|found|].
  2: { change (fields_of hun_table (u8 "ActIdAbbreviation")) with [required (u8 "abbreviation") TStr; required (u8 "act") TStr].
       req str. req str. apply no_fields. }
  reflexivity.
Qed.
Definition ActChildT : ty := TUnion [TClass (u8 "StructuralElement"); TClass (u8 "Article")].
Lemma struct_dump e t : In t [ActChildT; SubArticleChildType] -> F (struct_value e) t = Ok (unit_json e).
Proof.
  intros I. unfold struct_value, unit_json. destruct (se_kind e) eqn:K; cbn [struct_name unit_name is_part andb].
  2: { erewrite (obj_step t _ (u8 "Part") (Some (u8 "Part"))).
       2: { cbn [In] in I. destruct I as [<-|[<-|[]]]; found. }
       2: { change (fields_of hun_table (u8 "Part")) with
              [required (u8 "identifier") TStr; required (u8 "title") TStr; defaulted (u8 "special") TBool (VBool false)].
            req str. req str. eapply flag_step; [found|]. apply no_fields. }
       rewrite app_nil_r. apply tag_last. cbn [app map]. no_type_key. }
  all: match goal with |- F (VObj ?n _) _ = _ =>
    erewrite (obj_step t _ n (Some n));
      [|cbn [In] in I; destruct I as [<-|[<-|[]]]; found
       |change (fields_of hun_table n) with [required (u8 "identifier") TStr; required (u8 "title") TStr]; req str; req str; apply no_fields] end;
    apply tag_last; cbn [app map flag_key]; no_type_key.
Qed.

(** * Elements, articles and acts *)
Lemma sae_no_type s : ~ In TYPE_KEY (map fst (element_json s)).
Proof. destruct s as [k i t n cs w m]. cbn [element_json]. destruct cs; no_type_key. Qed.
Lemma article_no_type a : ~ In TYPE_KEY (map fst (article_json a)).
Proof. destruct a as [i t ps]. cbn [article_json]. cbn [app map]. no_type_key. Qed.

Lemma kind_facts k : kind_name k = element_name k /\ fields_of hun_table (kind_name k) = sae_fields.
Proof. destruct k; split; reflexivity. Qed.
Lemma kind_chosen k vals :
  chosen (TClass (u8 "Paragraph")) (VObj (kind_name k) vals) = Ok (BAttrs (u8 "Paragraph"), None) /\
  chosen SubArticleChildType (VObj (kind_name k) vals) = Ok (BAttrs (kind_name k), Some (kind_name k)).
Proof. destruct k; split; vm_compute; reflexivity. Qed.

Definition ChildrenT : ty := optional (TVarTuple SubArticleChildType).
Definition sae_vals (s : sae) : list value :=
  match s with
  | mk_sae k i t n cs w m =>
        [ opt_value str_value i; opt_value str_value t; opt_value str_value n;
          match cs with None => VNone | Some l => VTuple (map child_value l) end;
          opt_value str_value w;
          opt_value (tuple_value abbreviation_value) (m_abbreviations m);
          opt_value (tuple_value outgoing_value) (m_outgoing m);
          opt_value (tuple_value semantic_value) (m_semantic m) ]
  end.
Lemma sae_value_vals s : sae_value s = VObj (kind_name (s_kind s)) (sae_vals s).
Proof. destruct s; reflexivity. Qed.
Lemma tuple_opt_step {A} all n u (f g : A -> value) o fs r kvs :
  find_field n all = Some (defaulted n (optional (TVarTuple u)) VNone) ->
  (forall l, chosen (optional (TVarTuple u)) (VTuple l) = Ok (BVarTuple u, None)) ->
  (forall x, F (f x) u = Ok (g x)) -> D all fs r = Ok kvs ->
  D all (defaulted n (optional (TVarTuple u)) VNone :: fs) (opt_value (tuple_value f) o :: r) = Ok (opt_key n (list_json g) o ++ kvs).
Proof.
  intros H C E K. apply (opt_step all n _ (tuple_value f) (list_json g) o fs r kvs H); [|exact K].
  intros l _. split; [reflexivity|]. apply (tuple_step _ u f g); [apply C|]. intros x _. apply E.
Qed.
Lemma sae_dump s : (forall l c, s_children s = Some l -> In c l -> F (child_value c) SubArticleChildType = Ok (child_json c)) ->
  D sae_fields sae_fields (sae_vals s) = Ok (element_json s).
Proof.
  destruct s as [k i t n cs w m]. cbn [s_children sae_vals element_json]. intros H. unfold sae_fields at 2.
  do 3 ostr. 
  assert (R : D sae_fields
     [ opt_str (u8 "wrap_up");
       defaulted (u8 "act_id_abbreviations") (optional (TVarTuple (TClass (u8 "ActIdAbbreviation")))) VNone;
       defaulted (u8 "outgoing_references") (optional (TVarTuple (TClass (u8 "OutgoingReference")))) VNone;
       defaulted (u8 "semantic_data") (optional (TVarTuple (TClass (u8 "SemanticData")))) VNone ]
     [ opt_value str_value w; opt_value (tuple_value abbreviation_value) (m_abbreviations m);
       opt_value (tuple_value outgoing_value) (m_outgoing m); opt_value (tuple_value semantic_value) (m_semantic m) ]
     = Ok (opt_key (u8 "wrap_up") VStr w ++ opt_key (u8 "act_id_abbreviations") (list_json abbreviation_json) (m_abbreviations m) ++
           opt_key (u8 "outgoing_references") (list_json outgoing_json) (m_outgoing m) ++
           opt_key (u8 "semantic_data") (list_json semantic_json) (m_semantic m))).
  { ostr. eapply tuple_opt_step; [found|intros; found|apply abbreviation_dump|].
    eapply tuple_opt_step; [found|intros; found|apply outgoing_dump|].
    rewrite <- (app_nil_r (opt_key _ (list_json semantic_json) _)).
    eapply tuple_opt_step; [found|intros; found|apply semantic_dump|]. apply no_fields. }
  destruct cs as [l|].
  - apply (any_step sae_fields (u8 "children") ChildrenT VNone (VTuple (map child_value l)) (VList (map child_json l)) false); [found|reflexivity| |exact R].
    intros _. apply (tuple_step ChildrenT SubArticleChildType child_value child_json); [found|]. intros c Hc. now apply (H l).
  - exact (any_step sae_fields (u8 "children") ChildrenT VNone VNone VNone true _ _ _ ltac:(found) eq_refl (fun e => ltac:(discriminate e)) R).
Qed.
Lemma child_kind s : child_json (ChSae s) = named (element_name (s_kind s)) (element_json s).
Proof. destruct s; reflexivity. Qed.

Definition sae_written (s : sae) : Prop := D sae_fields sae_fields (sae_vals s) = Ok (element_json s).
Definition child_written (c : child) : Prop := F (child_value c) SubArticleChildType = Ok (child_json c).
Definition article_written (a : article) : Prop :=
  forall t tag, (forall vals, chosen t (VObj (u8 "Article") vals) = Ok (BAttrs (u8 "Article"), tag)) ->
    F (article_value a) t = add_tag tag (VDict (article_json a)).
Lemma sae_child s : sae_written s -> child_written (ChSae s).
Proof.
  intros H. unfold child_written. rewrite child_kind. cbn [child_value]. rewrite sae_value_vals.
  destruct (kind_facts (s_kind s)) as [E1 E2]. destruct (kind_chosen (s_kind s) (sae_vals s)) as [_ C].
  erewrite (obj_step _ _ _ _ _ _ C); [|rewrite E2; exact H]. rewrite E1. apply tag_last, sae_no_type.
Qed.
Lemma sae_paragraph s : sae_written s -> F (sae_value s) (TClass (u8 "Paragraph")) = Ok (VDict (element_json s)).
Proof.
  intros H. rewrite sae_value_vals. destruct (kind_facts (s_kind s)) as [_ E2]. destruct (kind_chosen (s_kind s) (sae_vals s)) as [C _].
  erewrite (obj_step _ _ _ _ _ _ C); [reflexivity|]. rewrite E2. exact H.
Qed.
Lemma article_of_paragraphs i t ps : Forall sae_written ps -> article_written (mk_article i t ps).
Proof.
  intros H ty tag C. cbn [article_value article_json]. erewrite (obj_step _ _ _ _ _ _ (C _)); [reflexivity|].
  change (fields_of hun_table (u8 "Article")) with
    [required (u8 "identifier") TStr; required (u8 "children") (TVarTuple (TClass (u8 "Paragraph"))); opt_str (u8 "title")].
  rewrite <- (app_nil_r (opt_key (u8 "title") VStr t)).
  eapply (required_step _ _ _ _ _ _ _ ((u8 "children", _) :: _)); [found|str|].
  eapply required_step; [found| |ostr; apply no_fields].
  apply (tuple_step _ (TClass (u8 "Paragraph")) sae_value (fun p => VDict (element_json p))); [found|].
  intros p Hp. apply sae_paragraph. rewrite Forall_forall in H. now apply H.
Qed.
Lemma quoted_dump l : child_written (ChQuoted l).
Proof.
  unfold child_written. cbn [child_value child_json].
  erewrite (obj_step SubArticleChildType _ (u8 "QuotedBlock") (Some (u8 "QuotedBlock"))); [|found|].
  2: { change (fields_of hun_table (u8 "QuotedBlock")) with [required (u8 "lines") (TVarTuple (TClass (u8 "IndentedLine")))].
       eapply required_step; [found| |apply no_fields].
       apply (tuple_step _ (TClass (u8 "IndentedLine")) line_value line_json); [found|]. intros x _. apply line_dump. }
  apply tag_last. cbn [app map]. no_type_key.
Qed.

Fixpoint sae_ok (s : sae) : sae_written s
with child_ok (c : child) : child_written c
with article_ok (a : article) : article_written a.
Proof.
  - destruct s as [k i t n cs w m]. apply sae_dump. cbn [s_children]. intros l c E. destruct cs as [l'|]; [|discriminate].
    injection E as <-. induction l' as [|x l' IH]; intros Hi; [destruct Hi|]. destruct Hi as [<-|Hi]; [apply child_ok|exact (IH Hi)].
  - destruct c as [s|a|l|e].
    + apply sae_child, sae_ok.
    + unfold child_written. cbn [child_value child_json].
      rewrite (article_ok a SubArticleChildType (Some (u8 "Article"))) by (intros; vm_compute; reflexivity). apply tag_last, article_no_type.
    + apply quoted_dump.
    + apply struct_dump. right. now left.
  - destruct a as [i t ps]. apply article_of_paragraphs. induction ps as [|p ps IH]; constructor; [apply sae_ok|exact IH].
Qed.

Lemma act_child_dump c : F (act_child_value c) ActChildT = Ok (act_child_json c).
Proof.
  destruct c as [e|a]; cbn [act_child_value act_child_json]; [apply struct_dump; now left|].
  rewrite (article_ok a ActChildT (Some (u8 "Article"))) by (intros; vm_compute; reflexivity). apply tag_last, article_no_type.
Qed.
Lemma act_dump a : F (act_value a) (TClass (u8 "Act")) = Ok (act_json a).
Proof.
  unfold act_value. erewrite (obj_step _ _ (u8 "Act") None); [|found|].
  2: { change (fields_of hun_table (u8 "Act")) with
         [ required (u8 "identifier") TStr; required (u8 "publication_date") DateT; required (u8 "subject") TStr;
           required (u8 "preamble") TStr; required (u8 "children") (TVarTuple ActChildT) ].
       req str. req ltac:(apply date_plain). req str. req str. eapply required_step; [found| |apply no_fields].
       apply (tuple_step _ ActChildT act_child_value act_child_json); [found|]. intros x _. apply act_child_dump. }
  reflexivity.
Qed.
Lemma law_dump i d s b : F (raw_value i d s b) (TClass (u8 "MagyarKozlonyLawRawText")) = Ok (law_json i d s b).
Proof.
  unfold raw_value. erewrite (obj_step _ _ (u8 "MagyarKozlonyLawRawText") None); [|found|].
  2: { change (fields_of hun_table (u8 "MagyarKozlonyLawRawText")) with
         [ required (u8 "identifier") TStr; required (u8 "publication_date") DateT; required (u8 "subject") TStr;
           required (u8 "body") (TVarTuple (TClass (u8 "IndentedLine"))) ].
       req str. req ltac:(apply date_plain). req str. eapply required_step; [found| |apply no_fields].
       apply (tuple_step _ (TClass (u8 "IndentedLine")) line_value line_json); [found|]. intros x _. apply line_dump. }
  reflexivity.
Qed.
Lemma factory_step all n t x v w : find_field n all = Some (mk_field n t (Factory x) true) -> F v t = Ok w ->
  D all [mk_field n t (Factory x) true] [v] = Ok [(n, w)].
Proof. intros H E. cbn [dump_fields is_default f_default f_name]. rewrite H. cbn [f_type]. rewrite E. reflexivity. Qed.
Definition page_value (l : list line) : value := VObj (u8 "PageOfLines") [VList (map line_value l)].
Lemma page_dump l : F (page_value l) (TClass (u8 "PageOfLines")) = Ok (VDict [(u8 "lines", list_json line_json l)]).
Proof.
  unfold page_value. erewrite (obj_step _ _ (u8 "PageOfLines") None); [|found|].
  2: { change (fields_of hun_table (u8 "PageOfLines")) with [mk_field (u8 "lines") (TList (TClass (u8 "IndentedLine"))) (Factory (VList [])) true].
       apply factory_step; [found|]. apply (list_step _ (TClass (u8 "IndentedLine")) line_value line_json); [found|]. intros x _. apply line_dump. }
  reflexivity.
Qed.
Lemma pages_dump pages : F (pdf_value pages) (TClass (u8 "PdfOfLines")) = Ok (pages_json pages).
Proof.
  unfold pdf_value. fold page_value. erewrite (obj_step _ _ (u8 "PdfOfLines") None); [|found|].
  2: { change (fields_of hun_table (u8 "PdfOfLines")) with [mk_field (u8 "pages") (TList (TClass (u8 "PageOfLines"))) (Factory (VList [])) true].
       apply factory_step; [found|].
       apply (list_step _ (TClass (u8 "PageOfLines")) page_value (fun l => VDict [(u8 "lines", list_json line_json l)])); [found|]. intros x _. apply page_dump. }
  reflexivity.
Qed.
