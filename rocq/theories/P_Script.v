(* C79: the list of acts and the issues they were published in. *)
From Coq Require Import Lia Sorted.
From Verif Require Import PyBase PyBaseFacts LineModel ScriptModel ScriptSpec ScriptProofs.
Local Open Scope Z_scope.

(** C79: the texts of a page are kept in their order, without the white space around them; blank ones are not kept. *)
Theorem C79_texts : forall es, exists l, texts_of es l /\ map snd (mp_tags (feed es new_parser)) = l /\ forall l', texts_of es l' -> l' = l.
Proof.
  intros es. destruct (texts_exist es) as (l & H). exists l. split; [exact H|]. pose proof (texts_ok es new_parser l H) as E. split; [exact E|].
  intros l' H'. pose proof (texts_ok es new_parser l' H') as E'. cbn [new_parser mp_tags map app] in E, E'. congruence.
Qed.
Print Assumptions C79_texts.
(* They are kept with the elements they are in, if no element is inside another one of the same name. *)
Theorem C79_paths : forall ns l, no_nesting [] ns -> texts_in [] ns l -> mp_tags (feed (flat_map node_events ns) new_parser) = l.
Proof. intros ns l H T. unfold new_parser. rewrite (paths_ok _ [] ns l [] (Nat.lt_succ_diag_r _) H T). reflexivity. Qed.
Print Assumptions C79_paths.
(* Otherwise the end of the inner one ends the outer one as well. *)
Theorem C79_paths_refuted : ~ forall ns l, texts_in [] ns l -> mp_tags (feed (flat_map node_events ns) new_parser) = l.
Proof.
  intros H. specialize (H [Elem (u8 "div") [Elem (u8 "div") []; Text (u8 "x")]] [([u8 "div"], u8 "x")]).
  assert (T : texts_in [] [Elem (u8 "div") [Elem (u8 "div") []; Text (u8 "x")]] [([u8 "div"], u8 "x")]).
  { apply (ti_elem [] (u8 "div") _ [] [([u8 "div"], u8 "x")] []); [|constructor]. apply (ti_elem [u8 "div"] (u8 "div") [] _ [] [([u8 "div"], u8 "x")]); [constructor|].
    apply ti_text; [exact (strip_shown (u8 "x"))|discriminate|constructor]. }
  apply H in T. vm_compute in T. discriminate T.
Qed.
Print Assumptions C79_paths_refuted.
(* The lines printed for an issue are those of its acts: the texts that start like one and are followed by one that does not. *)
Theorem C79_issue : forall e y i data text, se_urlopen e (contents_url y i) = Ok data -> se_decode e data = Ok text ->
  exists texts acts, texts_of (se_html e text) texts /\ listed texts acts /\ parse_single_issue e y i = Ok (map (fun p => table_row y i (fst p) (snd p)) acts).
Proof.
  intros e y i data text U D. destruct (texts_exist (se_html e text)) as (texts & T). destruct (listed_exist texts) as (acts & A). exists texts, acts.
  split; [exact T|]. split; [exact A|]. unfold parse_single_issue. rewrite U. cbn [bind]. rewrite D. cbn [bind].
  pose proof (texts_ok _ new_parser _ T) as E. cbn [new_parser mp_tags map app] in E. rewrite E. f_equal. exact (proj1 (rows_ok y i texts acts A)).
Qed.
Print Assumptions C79_issue.
(* A line is read as its year, issue, act and title, if the identifier has no comma, there are no line breaks, and the title has no
   quotes, or neither a comma nor a quote at its start. *)
Theorem C79_csv : forall y i id t, starts_like_act id -> ~ In 44%N id -> ~ In 10%N (id ++ t) -> ~ In 13%N (id ++ t) ->
  ~ In 34%N t \/ ~ In 44%N t /\ (forall u, t <> 34%N :: u) -> csv_line (table_row y i id t) [str_of_int y; str_of_int i; id; t].
Proof. exact csv_ok. Qed.
Print Assumptions C79_csv.
(* Not for other titles: quotes are not doubled.  This is line 1186 of act_to_mk_issue.csv, where they are. *)
Definition c79_doha : pystr := u8 "Az ENSZ Éghajlatváltozási Keretegyezményéhez fűzött Kiotói Jegyzőkönyv 2012. december 8-án Dohában, az ENSZ Éghajlatváltozási Keretegyezmény Részes Felek 18. Konferenciáján elfogadásra került ""dohai módosításának"" kihirdetéséről".
Lemma c79_id : starts_like_act (u8 "2015. évi LIX. törvény").
Proof. apply act_id_ok. vm_compute. reflexivity. Qed.
Theorem C79_csv_refuted : ~ forall y i id t, starts_like_act id -> ~ In 44%N id -> ~ In 10%N (id ++ t) -> ~ In 13%N (id ++ t) ->
  csv_line (table_row y i id t) [str_of_int y; str_of_int i; id; t].
Proof.
  assert (A : forall c s, mem_chr c s = false -> ~ In c s) by (intros c s E I; apply mem_chr_In in I; congruence).
  intros H. destruct (H 2015 77 (u8 "2015. évi LIX. törvény") c79_doha c79_id) as (_ & _ & E); try (apply A; vm_compute; reflexivity). vm_compute in E. discriminate E.
Qed.
Print Assumptions C79_csv_refuted.
(* The issues are requested one after the other, from the first of 2009 to the 359th of 2019, until a request fails; then the
   lines of the earlier ones have been printed. *)
Theorem C79_all : forall e, exists done lss, let r := parse_all e in
  fst r = map (fun p => contents_url (fst p) (snd p)) done /\ StronglySorted earlier done /\ (forall p, In p done -> in_years (fst p) (snd p)) /\
  g_items (snd r) = concat lss /\
  match g_end (snd r) with
  | None => (forall y i, in_years y i -> In (y, i) done) /\ Forall2 (fun p ls => parse_single_issue e (fst p) (snd p) = Ok ls) done lss
  | Some x => exists before p, done = before ++ [p] /\ parse_single_issue e (fst p) (snd p) = Err x /\
      (forall y i, in_years y i -> earlier (y, i) p -> In (y, i) before) /\ Forall2 (fun p ls => parse_single_issue e (fst p) (snd p) = Ok ls) before lss
  end.
Proof.
  intros e. cbv zeta. unfold parse_all. fold all_issues. destruct (issues_ok e all_issues) as (done & rest & lss & El & F & G & H). exists done, lss.
  assert (S : StronglySorted earlier (done ++ rest)) by (rewrite <- El; exact all_sorted).
  split; [exact F|]. split; [exact (sorted_prefix _ _ _ S)|]. split; [intros [y i] I; apply all_in; rewrite El; apply in_or_app; now left|]. split; [exact G|].
  destruct (g_end (snd (parse_issues e all_issues))) as [x|].
  - destruct H as (before & p & -> & Ep & Fp). exists before, p. split; [reflexivity|]. split; [exact Ep|]. split; [|exact Fp].
    intros y i Hy Hp. apply all_in in Hy. rewrite El, <- app_assoc in Hy. apply in_app_or in Hy as [Hy|Hy]; [exact Hy|]. exfalso.
    assert (Hl : ~ earlier p p) by (unfold earlier; lia). destruct Hy as [->|Hy]; [exact (Hl Hp)|].
    clear - S Hy Hp. rewrite <- app_assoc in S. assert (E : earlier p (y, i)).
    { induction before as [|b before IH]; cbn [app] in S; inversion S as [|b' l' S1 S2]; subst; [|exact (IH S1)]. rewrite Forall_forall in S2. exact (S2 _ Hy). }
    unfold earlier in *. lia.
  - destruct H as [-> H]. split; [|exact H]. intros y i Hy. apply all_in in Hy. rewrite El, app_nil_r in Hy. exact Hy.
Qed.
Print Assumptions C79_all.

(** Examples *)
Definition c79_page : list node :=
  [Elem (u8 "html") [Elem (u8 "h1") [Text (u8 "
  Tartalom ")]; Text (u8 " "); Elem (u8 "table") [
    Elem (u8 "td") [Text (u8 "2009. évi I. törvény")]; Elem (u8 "td") [Text ([160%N] ++ u8 "a példáról")];
    Elem (u8 "td") [Text (u8 "2009. évi II. törvény")]; Elem (u8 "td") [Text (u8 "2009. évi III. törvény")]; Elem (u8 "td") [Text (u8 "a próbáról, másról")];
    Elem (u8 "td") [Text (u8 "1/2009. (I. 1.) rendelet")]]]].
Definition c79_env : script_env := mk_script_env (fun url => if str_eqb url (contents_url 2009 1) then Ok [] else Err OSError) (fun _ => Ok []) (fun _ => flat_map node_events c79_page).
Example C79_ex : contents_url 2009 1 = u8 "http://www.kozlonyok.hu/nkonline/index.php?menuindex=200&pageindex=kozltart&ev=2009&szam=1" /\
  parse_single_issue c79_env 2009 1 = Ok [u8 "2009,1,2009. évi I. törvény,a példáról"; u8 "2009,1,2009. évi III. törvény,""a próbáról, másról"""] /\
  csv_line (u8 "2009,1,2009. évi III. törvény,""a próbáról, másról""") [u8 "2009"; u8 "1"; u8 "2009. évi III. törvény"; u8 "a próbáról, másról"] /\
  parse_all c79_env = ([contents_url 2009 1; contents_url 2009 2], mk_gen [u8 "2009,1,2009. évi I. törvény,a példáról"; u8 "2009,1,2009. évi III. törvény,""a próbáról, másról"""] (Some OSError)) /\
  no_nesting [] [Elem (u8 "html") [Elem (u8 "h1") [Text (u8 "Tartalom ")]; Text (u8 " ")]] /\
  texts_in [] [Elem (u8 "html") [Elem (u8 "h1") [Text (u8 "Tartalom ")]; Text (u8 " ")]] [([u8 "html"; u8 "h1"], u8 "Tartalom")].
Proof.
  split; [reflexivity|]. split; [vm_compute; reflexivity|]. split; [|split; [vm_compute; reflexivity|split]].
  - split; [|split; [|vm_compute; reflexivity]]; intros I; apply mem_chr_In in I; vm_compute in I; discriminate I.
  - repeat (constructor || (intros [E|[]]; discriminate E) || (intros [])).
  - change [([u8 "html"; u8 "h1"], u8 "Tartalom")] with ([([u8 "html"; u8 "h1"], u8 "Tartalom")] ++ []). constructor; [|constructor].
    change [([u8 "html"; u8 "h1"], u8 "Tartalom")] with ([([u8 "html"; u8 "h1"], u8 "Tartalom")] ++ []). constructor.
    + apply ti_text; [exact (strip_shown (u8 "Tartalom "))|discriminate|constructor].
    + apply ti_blank; [exact (strip_shown (u8 " "))|constructor].
Qed.
