From Coq Require Import Lia.
From Coq Require Import ZifyBool ZifyNat ZifyN.
From Verif Require Import PyBase PyBaseFacts IdModel LineModel DateModel RefModel RefSpec TreeModel TreeSpec StructModel HtmlModel HtmlSpec HtmlProofs HtmlProofs2.
Local Open Scope Z_scope.

Lemma tree_mut (P : sae -> Prop) (Q : child -> Prop) (R : article -> Prop) :
  (forall k i t n cs w m, (forall l, cs = Some l -> Forall Q l) -> P (mk_sae k i t n cs w m)) ->
  (forall s, P s -> Q (ChSae s)) -> (forall a, R a -> Q (ChArticle a)) -> (forall ls, Q (ChQuoted ls)) -> (forall e, Q (ChStruct e)) ->
  (forall i t ps, Forall P ps -> R (mk_article i t ps)) ->
  (forall s, P s) /\ (forall c, Q c) /\ (forall a, R a).
Proof.
  intros HP HS HA HQ HE HR.
  pose (fs := fix fs (s : sae) : P s :=
    match s with mk_sae k i t n cs w m => HP k i t n cs w m
      (fun l E => match cs as o return o = Some l -> Forall Q l with
                  | None => fun E => match (eq_ind None (fun o => match o with None => True | Some _ => False end) I _ E) with end
                  | Some l0 => fun E => eq_ind l0 (Forall Q) ((fix go (l : list child) : Forall Q l := match l with [] => Forall_nil Q | c :: t => Forall_cons c (fc c) (go t) end) l0) l (f_equal (fun o => match o with Some x => x | None => l0 end) E)
                  end E) end
   with fc (c : child) : Q c := match c with ChSae s => HS s (fs s) | ChArticle a => HA a (fa a) | ChQuoted ls => HQ ls | ChStruct e => HE e end
   with fa (a : article) : R a := match a with mk_article i t ps => HR i t ps ((fix go (l : list sae) : Forall P l := match l with [] => Forall_nil P | s :: t => Forall_cons s (fs s) (go t) end) ps) end
   for fs).
  assert (FS : forall s, P s) by exact fs.
  assert (FA : forall a, R a) by (intros [i t ps]; apply HR; induction ps; constructor; auto).
  split; [exact FS|]. split; [|exact FA]. intros [s|a|ls|e]; auto.
Qed.

Definition html_children (cl : pystr) (ref : reference) := fix go (cs : list child) : res (list node) :=
  match cs with [] => Ok [] | c :: t => a <- html_child cl ref c ;; b <- go t ;; Ok (a ++ b) end.
Definition html_saes (ref : reference) := fix go (ps : list sae) : res (list node) :=
  match ps with [] => Ok [] | c :: t => a <- html_sae ref c ;; b <- go t ;; Ok (a ++ b) end.
Definition opt_children (cl : pystr) (ref : reference) (cs : option (list child)) : res (list node) :=
  match cs with None => Err TypeError | Some l => html_children cl ref l end.
Definition text_in_parentheses (t : pystr) : res node := Ok (div (cls (u8 "blockamendment_text")) (u8 "(" ++ t ++ u8 ")")).
Lemma html_container p i t n cs w m : html_sae p (mk_sae KBlockAmendmentContainer i t n cs w m) =
  (first <- when n text_in_parentheses ;; ns <- opt_children (u8 "blockamendmentcontainer") EXTERNAL cs ;; last <- when w text_in_parentheses ;;
   Ok (first ++ [div (cls (u8 "blockamendment_quote")) (u8 "„")] ++ [Node (u8 "div") (cls (u8 "blockamendment_container")) [] ns []] ++ [div (cls (u8 "blockamendment_quote")) (u8 "”")] ++ last)).
Proof. destruct cs; reflexivity. Qed.
Definition sae_id (p : reference) (k : sae_kind) (i : option pystr) (prefix : pystr) : node :=
  div [(u8 "id", id_of p); (u8 "class", sae_class k ++ u8 "_id")] prefix.
Lemma rel_place p s : s_kind s <> KBlockAmendmentContainer -> exists r, relative_reference s = Ok r /\ relative_to r p = place p s.
Proof. destruct s as [k i t n cs w m]. intros K. unfold relative_reference, place. cbn [s_kind s_identifier] in *. destruct k; try congruence; destruct i, p; eexists; (split; [reflexivity|]); reflexivity. Qed.
Lemma prefix_label k i : k <> KBlockAmendmentContainer -> header_prefix k i = Ok (label k i).
Proof. unfold label. destruct k; try congruence; reflexivity. Qed.
Definition sae_text (k : sae_kind) (p : reference) (m : sae_meta) (t : pystr) : res node :=
  text_with_links (cls (sae_class k ++ u8 "_text")) t p (match m_outgoing m with None => [] | Some l => l end).
Lemma html_element p k i t n cs w m : k <> KBlockAmendmentContainer ->
  html_sae p (mk_sae k i t n cs w m) =
  (let r := place p (mk_sae k i t n cs w m) in
   match opt_true t with
   | Some x => y <- sae_text k r m x ;; Ok [sae_id r k i (label k i); y]
   | None => first <- when n (sae_text k r m) ;; ns <- opt_children (sae_class k) r cs ;; last <- when w (fun t => Ok (div (cls (sae_class k ++ u8 "_text")) t)) ;;
             Ok (sae_id r k i (label k i) :: first ++ ns ++ last)
   end).
Proof.
  intros K. destruct (rel_place p (mk_sae k i t n cs w m) K) as (rel & Er & Ep). cbn zeta. rewrite <- Ep.
  pose proof (prefix_label k i K) as El. destruct k; try congruence; cbn [html_sae]; rewrite Er; cbn [bind]; rewrite El; cbn [bind]; reflexivity.
Qed.
Lemma html_article_eq p i t ps : html_article p (mk_article i t ps) =
  (let r := relative_to (mk_ref None (RId i) RNone RNone RNone) p in
   first <- when t (fun t => Ok (div (cls (u8 "article_title")) (u8 "[" ++ t ++ u8 "]"))) ;;
   ns <- html_saes r ps ;;
   Ok (div [(u8 "id", id_of r); (u8 "class", u8 "article_id")] (i ++ u8 ". §") :: first ++ ns ++ [div (cls (u8 "space_after_article")) []])).
Proof. reflexivity. Qed.

(** * What is shown *)
Definition says (ns : list node) (strs : list pystr) : Prop := Forall clean_tags ns /\ no_space (inners ns) = no_space (concat strs).
Lemma says_nil : says [] []. Proof. split; [constructor|reflexivity]. Qed.
Lemma says_app a b s t : says a s -> says b t -> says (a ++ b) (s ++ t).
Proof. intros [C1 E1] [C2 E2]. split; [apply Forall_app; auto|]. now rewrite inners_app, concat_app, !no_space_app, E1, E2. Qed.
Lemma says_cons n a s t : says [n] [s] -> says a t -> says (n :: a) (s :: t).
Proof. apply (says_app [n] a [s] t). Qed.
Lemma says_cat ns s t : says ns s -> no_space (concat s) = no_space (concat t) -> says ns t.
Proof. intros [C E] H. split; auto. congruence. Qed.
Lemma tag_clean (s : pystr) : forallb (fun c => negb (N.eqb c 62)) s = true -> ~ In 62%N s.
Proof. intros F I. rewrite forallb_forall in F. apply F in I. discriminate. Qed.
Lemma says_div attrs text : Forall (fun kv : pystr * pystr => ~ In 62%N (fst kv)) attrs -> says [div attrs text] [text].
Proof.
  intros A. split.
  - constructor; [|constructor]. constructor; [now apply tag_clean|auto|constructor].
  - cbn. now rewrite !app_nil_r.
Qed.
Lemma cls_clean c : Forall (fun kv : pystr * pystr => ~ In 62%N (fst kv)) (cls c).
Proof. constructor; [now apply tag_clean|constructor]. Qed.
Lemma id_clean i c : Forall (fun kv : pystr * pystr => ~ In 62%N (fst kv)) [(u8 "id", i); (u8 "class", c)].
Proof. constructor; [now apply tag_clean|]. constructor; [now apply tag_clean|constructor]. Qed.
Lemma says_when o f strs ns : (forall x n, o = Some x -> x <> [] -> f x = Ok n -> says [n] (strs x)) -> when o f = Ok ns -> says ns (match opt_true o with Some x => strs x | None => [] end).
Proof.
  intros H E. unfold when in E. destruct o as [[|c x]|]; cbn [opt_true] in *; try (injection E as <-; apply says_nil). apply bind_ok in E as (n & E & En). injection En as <-. apply (H (c :: x)); auto. discriminate.
Qed.
Lemma opt_strings o : no_space (concat (match opt_true o with Some x => [x] | None => [] end)) = no_space (concat [opt_string o]).
Proof. destruct o as [[|c x]|]; reflexivity. Qed.
Lemma says_links attrs text r os n : Forall (fun kv : pystr * pystr => ~ In 62%N (fst kv)) attrs -> text_with_links attrs text r os = Ok n -> says [n] [text].
Proof.
  intros A E. apply links_text in E as (T & Tl & Tg & At & _ & F & _). destruct n as [tag at' text' cs tail]. cbn [n_tail n_tag n_attrs n_children] in *. subst. split.
  - constructor; [|constructor]. constructor; [now apply tag_clean|auto|]. eapply Forall_impl; [|exact F]. intros [t a x c l] Hc. cbn [n_tag n_children n_attrs] in Hc. destruct Hc as (-> & -> & h & ->). constructor; [now apply tag_clean| |constructor]. constructor; [now apply tag_clean|constructor].
  - cbn [inners flat_map n_tail concat]. rewrite !app_nil_r. reflexivity.
Qed.
Lemma says_struct e ns : html_struct e = Ok ns -> says ns (struct_strings e).
Proof.
  unfold html_struct, struct_strings. intros E. apply bind_ok in E as (f & -> & E). injection E as <-. destruct (se_kind e).
  5:{ eapply says_cat; [apply says_div, cls_clean|]. cbn [concat]. rewrite !app_nil_r, !no_space_app. reflexivity. }
  all: split; [constructor; [|constructor]; constructor; [now apply tag_clean|apply cls_clean|constructor; [|constructor]; constructor; [now apply tag_clean|constructor|constructor]]|cbn; now rewrite !app_nil_r].
Qed.
Lemma quoted_line_says off count index l n : quoted_line off count index l = Ok n ->
  says [n] [(if Nat.eqb index 0 then u8 "„" else []) ++ l_content l ++ (if Nat.eqb index (count - 1) then u8 "”" else [])].
Proof.
  unfold quoted_line. intros E. apply bind_ok in E as (p & _ & E). injection E as <-. eapply says_cat; [apply says_div|].
  - constructor; [now apply tag_clean|constructor].
  - cbn [concat]. rewrite !app_nil_r. destruct (Nat.eqb index 0); [|destruct (Nat.eqb index (count - 1)); [|destruct (l_content l); cbn [app]; now rewrite ?app_nil_r]].
    + destruct (Nat.eqb index (count - 1)); cbn [app]; rewrite ?app_nil_r; reflexivity.
    + cbn [app]. destruct (l_content l ++ u8 "”") eqn:El; [destruct (l_content l); discriminate|reflexivity].
Qed.
Lemma quoted_lines_says off count ls : forall index ns, quoted_lines off count index ls = Ok ns -> (0 < index)%nat -> (index + List.length ls = count)%nat ->
  says ns (map l_content ls ++ match ls with [] => [] | _ => [u8 "”"] end).
Proof.
  induction ls as [|l ls IH]; intros index ns E P C; cbn [quoted_lines] in E.
  - injection E as <-. apply says_nil.
  - apply bind_ok in E as (n & En & E). apply bind_ok in E as (r & Er & E). injection E as <-. apply quoted_line_says in En. replace (Nat.eqb index 0) with false in En by (symmetry; apply Nat.eqb_neq; lia). cbn [app] in En. cbn [List.length] in C. destruct ls as [|l' ls].
    + cbn [quoted_lines] in Er. injection Er as <-. replace (Nat.eqb index (count - 1)) with true in En by (symmetry; apply Nat.eqb_eq; cbn in C; lia). eapply says_cat; [exact En|]. cbn. now rewrite !app_nil_r.
    + replace (Nat.eqb index (count - 1)) with false in En by (symmetry; apply Nat.eqb_neq; cbn in C; lia). rewrite app_nil_r in En. cbn [map app]. apply says_cons; auto. apply (IH (S index)); auto. cbn [List.length] in *. lia.
Qed.
Lemma says_quoted cl ls ns : html_quoted cl ls = Ok ns -> says ns (quoted_strings ls).
Proof.
  unfold html_quoted. intros E. apply bind_ok in E as (off & Eo & E). apply bind_ok in E as (lines & El & E). injection E as <-.
  assert (S : says lines (quoted_strings ls)).
  { destruct ls as [|l ls]; [discriminate|]. cbn [quoted_lines List.length] in El. apply bind_ok in El as (n & En & El). apply bind_ok in El as (r & Er & El). injection El as <-. apply quoted_line_says in En. cbn [Nat.eqb] in En. destruct ls as [|l' ls].
    - cbn [quoted_lines] in Er. injection Er as <-. cbn [List.length Nat.sub Nat.eqb] in En. eapply says_cat; [exact En|]. unfold quoted_strings. cbn [concat map app]. now rewrite !app_nil_r.
    - cbn [List.length Nat.sub Nat.eqb] in En. rewrite app_nil_r in En. apply quoted_lines_says in Er; [|lia|cbn; lia]. eapply says_cat; [exact (says_cons _ _ _ _ En Er)|]. unfold quoted_strings. cbn [map app concat]. now rewrite <- ?app_assoc. }
  destruct S as [C T]. split.
  - constructor; [|constructor]. constructor; [now apply tag_clean|apply cls_clean|exact C].
  - rewrite <- T. cbn [inners flat_map n_tail]. rewrite inner_eq, !app_nil_r. reflexivity.
Qed.
Lemma says_children cl r l : Forall (fun c => forall cl r ns, html_child cl r c = Ok ns -> says ns (child_strings c)) l -> forall ns, html_children cl r l = Ok ns -> says ns (flat_map child_strings l).
Proof.
  induction 1 as [|c l H F IH]; intros ns E; cbn in E; [injection E as <-; apply says_nil|]. apply bind_ok in E as (a & Ea & E). apply bind_ok in E as (b & Eb & E). injection E as <-. cbn [flat_map]. apply says_app; [eapply H; eauto|eauto].
Qed.
Lemma says_saes r l : Forall (fun s => forall r ns, html_sae r s = Ok ns -> says ns (sae_strings s)) l -> forall ns, html_saes r l = Ok ns -> says ns (flat_map sae_strings l).
Proof.
  induction 1 as [|c l H F IH]; intros ns E; cbn in E; [injection E as <-; apply says_nil|]. apply bind_ok in E as (a & Ea & E). apply bind_ok in E as (b & Eb & E). injection E as <-. cbn [flat_map]. apply says_app; [eapply H; eauto|eauto].
Qed.
Definition inside_strings (cs : option (list child)) : list pystr := match cs with None => [] | Some l => flat_map child_strings l end.
Lemma says_parentheses o ns : when o text_in_parentheses = Ok ns -> says ns (in_parentheses o).
Proof.
  intros E. eapply says_cat; [eapply (says_when o text_in_parentheses (fun x => [u8 "("; x; u8 ")"])); [|exact E]|].
  - intros x n _ _ En. injection En as <-. eapply says_cat; [apply says_div, cls_clean|]. cbn [concat]. now rewrite !app_nil_r.
  - destruct o as [[|c x]|]; reflexivity.
Qed.
Theorem tree_says :
  (forall s r ns, html_sae r s = Ok ns -> says ns (sae_strings s)) /\
  (forall c cl r ns, html_child cl r c = Ok ns -> says ns (child_strings c)) /\
  (forall a r ns, html_article r a = Ok ns -> says ns (article_strings a)).
Proof.
  apply tree_mut.
  - intros k i t n cs w m H r ns E. destruct (sae_kind_eqb k KBlockAmendmentContainer) eqn:K.
    + assert (k = KBlockAmendmentContainer) as -> by (destruct k; try discriminate; reflexivity). rewrite html_container in E. apply bind_ok in E as (a & Ea & E). apply bind_ok in E as (b & Eb & E). apply bind_ok in E as (c & Ec & E). injection E as <-.
      destruct cs as [l|]; [|discriminate]. cbn [opt_children] in Eb. apply says_children in Eb; [|now apply H]. change (sae_strings _) with (in_parentheses n ++ [u8 "„"] ++ flat_map child_strings l ++ [u8 "”"] ++ in_parentheses w).
      apply says_app; [now apply says_parentheses|]. apply says_cons; [apply says_div, cls_clean|]. apply (says_app [_] (_ :: c) (flat_map child_strings l) (u8 "”" :: in_parentheses w)); [|apply says_cons; [apply says_div, cls_clean|now apply says_parentheses]].
      destruct Eb as [C T]. split; [constructor; [|constructor]; constructor; [now apply tag_clean|apply cls_clean|exact C]|]. rewrite <- T. cbn [inners flat_map n_tail]. rewrite inner_eq, !app_nil_r. reflexivity.
    + assert (K' : k <> KBlockAmendmentContainer) by (intros ->; discriminate). rewrite html_element in E by auto. cbn zeta in E. set (p := place r _) in E.
      assert (Es : sae_strings (mk_sae k i t n cs w m) = label k i :: match opt_true t with Some x => [x] | None => [opt_string n] ++ inside_strings cs ++ [opt_string w] end) by (destruct k; try congruence; reflexivity). rewrite Es. clear Es.
      destruct (opt_true t) as [x|].
      * apply bind_ok in E as (y & Ey & E). injection E as <-. apply says_cons; [apply says_div, id_clean|]. eapply says_links; [|exact Ey]. apply cls_clean.
      * apply bind_ok in E as (a & Ea & E). apply bind_ok in E as (b & Eb & E). apply bind_ok in E as (c & Ec & E). injection E as <-. destruct cs as [l|]; [|discriminate]. cbn [opt_children inside_strings] in *. apply says_children in Eb; [|now apply H].
        apply says_cons; [apply says_div, id_clean|]. apply says_app; [|apply says_app; [exact Eb|]].
        -- eapply says_cat; [|apply opt_strings]. refine (says_when n _ (fun x => [x]) a _ Ea). intros x y _ _ Ey. eapply says_links; [|exact Ey]. apply cls_clean.
        -- eapply says_cat; [|apply opt_strings]. refine (says_when w _ (fun x => [x]) c _ Ec). intros x y _ _ Ey. injection Ey as <-. apply says_div, cls_clean.
  - intros s H cl r ns E. exact (H r ns E).
  - intros a H cl r ns E. exact (H r ns E).
  - intros ls cl r ns E. exact (says_quoted cl ls ns E).
  - intros e cl r ns E. exact (says_struct e ns E).
  - intros i t ps H r ns E. rewrite html_article_eq in E. cbn zeta in E. apply bind_ok in E as (a & Ea & E). apply bind_ok in E as (b & Eb & E). injection E as <-. apply says_saes in Eb; auto.
    change (article_strings (mk_article i t ps)) with ([i; u8 ". §"] ++ match t with None | Some [] => [] | Some t => [u8 "["; t; u8 "]"] end ++ flat_map sae_strings ps).
    match goal with |- says (?d :: a ++ b ++ ?e) _ => change (d :: a ++ b ++ e) with ([d] ++ a ++ b ++ e) end. apply says_app; [|apply says_app].
    + eapply says_cat; [apply says_div, id_clean|]. cbn [concat]. now rewrite !app_nil_r.
    + eapply says_cat; [refine (says_when t _ (fun x => [u8 "["; x; u8 "]"]) a _ Ea)|].
      * intros x y _ _ Ey. injection Ey as <-. eapply says_cat; [apply says_div, cls_clean|]. cbn [concat]. now rewrite !app_nil_r.
      * destruct t as [[|c x]|]; reflexivity.
    + rewrite <- (app_nil_r (flat_map sae_strings ps)). apply says_app; auto. eapply says_cat; [apply says_div, cls_clean|]. reflexivity.
Qed.

(** * The body and the file *)
Lemma body_says a body : html_body a false = Ok body -> clean_tags body /\ no_space (inner body) = no_space (concat (act_strings a)) /\ n_tail body = [].
Proof.
  unfold html_body. intros E. apply bind_ok in E as (cs & Ec & E). injection E as <-.
  assert (S : says (concat cs) (flat_map act_child_strings (act_children a))).
  { clear -Ec. revert cs Ec. induction (act_children a) as [|c l IH]; intros cs E; cbn [mapM] in E; [injection E as <-; apply says_nil|]. apply bind_ok in E as (x & Ex & E). apply bind_ok in E as (y & Ey & E). injection E as <-. cbn [concat flat_map]. apply says_app; auto.
    destruct c as [e|x']; [now apply says_struct|]. destruct tree_says as (_ & _ & H). now apply (H x' EMPTY_REF). }
  set (title := Node (u8 "div") (cls (u8 "act_title")) (act_identifier a) [Node (u8 "br") [] [] [] (act_subject a)] []).
  assert (T : says [title] [act_identifier a; act_subject a]).
  { split; [constructor; [|constructor]; constructor; [now apply tag_clean|apply cls_clean|constructor; [|constructor]; constructor; [now apply tag_clean|constructor|constructor]]|]. cbn. now rewrite !app_nil_r. }
  assert (P : says (match act_preamble a with [] => [] | p => [div (cls (u8 "preamble")) p] end) [act_preamble a]).
  { destruct (act_preamble a) as [|c p] eqn:Ep; [split; [constructor|reflexivity]|]. apply says_div, cls_clean. }
  destruct (says_app _ _ _ _ T (says_app _ _ _ _ P S)) as [C E]. split; [|split; [|reflexivity]].
  - constructor; [now apply tag_clean|apply cls_clean|exact C].
  - rewrite inner_eq. cbn [app]. exact E.
Qed.
Lemma reindented_clean n : forall n', reindented n n' -> clean_tags n -> clean_tags n'.
Proof.
  induction n as [tag attrs text cs tail IH] using node_induct. intros n' R C. inversion R as [? ? ? text' ? cs' ? tail' R1 F R2 E]; subst. inversion C as [? ? ? ? ? T A Fc]; subst. constructor; auto.
  clear -IH F Fc. induction F as [|c c' cs cs' Rc F IHf]; constructor; inversion IH; inversion Fc; subst; auto.
Qed.
Lemma reindented_tails n n' : reindented n n' -> respaced (n_tail n) (n_tail n').
Proof. intros [tag attrs text text' cs cs' tail tail' R F T E]. exact T. Qed.
Lemma html_body_indent a : html_body a true = (b <- html_body a false ;; Ok (indent_node 0 b)).
Proof. unfold html_body. destruct (mapM _ (act_children a)); reflexivity. Qed.
Theorem file_shows a file : html_file a = Ok file -> no_space (shown file) = no_space (concat (act_identifier a :: act_strings a)).
Proof.
  unfold html_file, html_tree. rewrite html_body_indent. intros E. apply bind_ok in E as (tree & E & Ef). injection Ef as <-. apply bind_ok in E as (b & Eb & E). injection E as <-. apply bind_ok in Eb as (b0 & Eb & E). injection E as <-.
  destruct (body_says a b0 Eb) as (C & T & Tl). pose proof (indent_only b0 0) as R. pose proof (reindented_clean _ _ R C) as C'. pose proof (reindented_text _ _ R) as T'.
  assert (Tl' : no_space (n_tail (indent_node 0 b0)) = []) by (rewrite <- (respaced_same _ _ (reindented_tails _ _ R)), Tl; reflexivity).
  set (tree := Node (u8 "html") [] [] _ []).
  assert (Ct : clean_tags tree).
  { constructor; [now apply tag_clean|constructor|]. constructor; [|constructor; [|constructor]].
    - constructor; [now apply tag_clean|constructor|]. repeat (constructor; [constructor; [now apply tag_clean|repeat (constructor; [now apply tag_clean|]); constructor|constructor]|]). constructor.
    - constructor; [now apply tag_clean|constructor|]. constructor; [auto|constructor]. }
  unfold shown. change (strip_tags false (u8 "<!DOCTYPE html>" ++ [10%N] ++ serialize tree)) with (10%N :: strip_tags false (serialize tree)). cbn [unescape]. change ((10 =? 38)%N) with false. cbn [andb].
  transitivity (no_space (unescape 0 (strip_tags false (serialize tree)))); [reflexivity|]. fold (shown (serialize tree)). rewrite shown_serialize by exact Ct.
  assert (Ei : inner tree ++ n_tail tree = act_identifier a ++ 10%N :: inner (indent_node 0 b0) ++ n_tail (indent_node 0 b0)).
  { unfold tree. generalize (indent_node 0 b0). intros B. cbn [inner flat_map html_head n_tail app]. rewrite !app_nil_r. reflexivity. }
  rewrite Ei. change (10%N :: ?x) with ([10%N] ++ x). rewrite !no_space_app, Tl', <- T', T. cbn [concat]. rewrite no_space_app, app_nil_r. reflexivity.
Qed.

Theorem head_ok a file : html_file a = Ok file -> exists rest,
  file = u8 "<!DOCTYPE html>" ++ [10%N] ++ u8 "<html><head><title>" ++ flat_map esc_text (act_identifier a) ++
    u8 "</title><meta http-equiv=""Content-Type"" content=""text/html; charset=utf-8""><link rel=""stylesheet"" href=""style.css""></head><body>" ++ rest.
Proof.
  unfold html_file, html_tree. intros E. apply bind_ok in E as (tree & E & Ef). injection Ef as <-. apply bind_ok in E as (b & Eb & E). injection E as <-.
  exists ([10%N] ++ serialize b ++ u8 "</body></html>"). do 2 f_equal. cbn [serialize html_head flat_map]. generalize (flat_map esc_text (act_identifier a)) (serialize b). intros i t.
  rewrite !app_nil_r. repeat rewrite <- app_assoc. reflexivity.
Qed.
Theorem subtitle_ok e n : html_struct e = Ok [n] -> se_kind e = KSubtitle -> exists f, formatted_identifier e = Ok f /\ shown (serialize n) = f ++ u8 " " ++ se_title e.
Proof.
  unfold html_struct. intros E K. apply bind_ok in E as (f & F & E). injection E as <-. exists f. split; [exact F|]. rewrite K.
  rewrite shown_serialize; [cbn [inner flat_map div n_tail]; now rewrite !app_nil_r|]. constructor; [now apply tag_clean|apply cls_clean|constructor].
Qed.
