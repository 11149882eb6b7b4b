(* Further theorems of C43, C44, C47 and C50: parts of the model that only examples pinned down. *)
From Coq Require Import Lia.
From Verif Require Import PyBase PyBaseFacts LineModel PdfModel HtmlModel TxtModel TxtSpec TxtSpec2 TxtProofs TxtProofs4 P_Txt ExtModel CacheModel CacheSpec CacheProofs.
Local Open Scope Z_scope.

(** C43: what the extractors of an object yield is taken in their order, and nothing is taken if one of them fails or there is none. *)
Theorem C43_step : forall Obj C (w : world Obj C) o os, extract_from w o = Ok os <->
  exists fs yss, w_extractors w (w_class w o) = Some fs /\ Forall2 (fun f ys => f o = mk_gen ys None) fs yss /\ os = concat yss.
Proof.
  intros Obj C w o os. unfold extract_from. destruct (w_extractors w (w_class w o)) as [fs|]; [|split; [discriminate|intros (fs & yss & E & _); discriminate]].
  assert (G : forall fs os, run_extractors fs o = Ok os <-> exists yss, Forall2 (fun f ys => f o = mk_gen ys None) fs yss /\ os = concat yss).
  { clear fs os. induction fs as [|f fs IH]; intros os; cbn [run_extractors].
    - split; [intros [= <-]; exists []; split; [constructor|reflexivity]|intros (yss & F & ->); inversion F; reflexivity].
    - destruct (f o) as [ys e] eqn:Ef. cbn [g_end g_items]. destruct e as [e|].
      + split; [discriminate|]. intros (yss & F & _). inversion F as [|? ? ? ? H]; subst. rewrite Ef in H. discriminate.
      + split.
        * intros E. apply bind_ok in E as (l & E & El). injection El as <-. apply IH in E as (yss & F & ->). exists (ys :: yss). split; [constructor; [exact Ef|exact F]|reflexivity].
        * intros (yss & F & ->). inversion F as [|? ys' ? yss' H F']; subst. rewrite Ef in H. injection H as <-. rewrite (proj2 (IH (concat yss'))); [reflexivity|eauto]. }
  rewrite G. split; [intros (yss & H); exists fs, yss; tauto|intros (fs' & yss & [= <-] & H); eauto].
Qed.
Print Assumptions C43_step.
Theorem C43_step_error : forall Obj C (w : world Obj C) o e, extract_from w o = Err e <->
  (w_extractors w (w_class w o) = None /\ e = KeyError) \/
  exists before f after ys, w_extractors w (w_class w o) = Some (before ++ f :: after) /\ Forall (fun f => g_end (f o) = None) before /\ f o = mk_gen ys (Some e).
Proof.
  intros Obj C w o e. unfold extract_from. destruct (w_extractors w (w_class w o)) as [fs|].
  - assert (G : forall fs, run_extractors fs o = Err e <-> exists before f after ys, fs = before ++ f :: after /\ Forall (fun f => g_end (f o) = None) before /\ f o = mk_gen ys (Some e)).
    { clear fs. induction fs as [|f fs IH]; cbn [run_extractors]; [split; [discriminate|intros ([|] & ? & ? & ? & ? & _); discriminate]|]. destruct (f o) as [ys [e'|]] eqn:Ef; cbn [g_end g_items].
      - split; [intros [= ->]; exists [], f, fs, ys; auto|]. intros (before & g & after & ys' & E & F & Eg). destruct before as [|b before]; injection E as -> ->; [congruence|]. inversion F as [|? ? H]; subst. rewrite Ef in H. discriminate.
      - split.
        + intros E. destruct (run_extractors fs o) as [l|e'] eqn:R; [discriminate|]. cbn in E. injection E as ->. destruct (proj1 IH eq_refl) as (before & g & after & ys' & -> & F & Eg).
          exists (f :: before), g, after, ys'. split; [reflexivity|]. split; [constructor; [rewrite Ef; reflexivity|exact F]|exact Eg].
        + intros (before & g & after & ys' & E & F & Eg). destruct before as [|b before]; injection E as -> ->; [congruence|]. inversion F; subst. rewrite (proj2 IH); [reflexivity|]. exists before, g, after, ys'. auto. }
    rewrite G. split.
    + intros (before & f & after & ys & -> & H). right. exists before, f, after, ys. tauto.
    + intros [[? _]|(before & f & after & ys & [= ->] & H)]; [discriminate|]. exists before, f, after, ys. tauto.
  - split; [intros [= <-]; auto|]. intros [[_ ->]|(? & ? & ? & ? & ? & _)]; [reflexivity|discriminate].
Qed.
Print Assumptions C43_step_error.

(** C44, C50: the two numbers 0.2 are the nearest numbers of 53 binary digits to one fifth. *)
Definition nearest_fifth (f : pyfloat) : Prop := exists m e, f = f_dyadic m (- e) /\ 0 <= e /\ 2 ^ 52 <= m < 2 ^ 53 /\ 2 * Z.abs (5 * m - 2 ^ e) < 5.
Theorem C44_fifth : nearest_fifth f_02.
Proof. exists 7205759403792794, 55. vm_compute. repeat split; discriminate. Qed.
Print Assumptions C44_fifth.
Theorem C50_fifth : nearest_fifth f_fifth.
Proof. exists 7205759403792794, 55. vm_compute. repeat split; discriminate. Qed.
Print Assumptions C50_fifth.

(** C47: initialising the cache makes its directory and changes nothing else. *)
Theorem C47_init : forall dir s, can_make s dir -> let o := init_cache dir s in
  o_res o = Ok (Some dir) /\ fs_dir (final s o) dir = true /\ (forall p, fs_dir s p = true -> fs_dir (final s o) p = true) /\ forall p, fs_file (final s o) p = fs_file s p.
Proof.
  intros dir s M. cbv zeta. unfold init_cache, io_bind. rewrite (makedirs_ok dir s M). unfold final. cbn [o_res o_states last io_ret app].
  split; [reflexivity|]. split; [apply orb_true_iff; left; apply existsb_exists; exists dir; split; [left; reflexivity|apply str_eqb_eq; reflexivity]|]. split; [|reflexivity]. intros p H. apply orb_true_iff. now right.
Qed.
Print Assumptions C47_init.
Example C47_init_ex : can_make (mk_fs (fun _ => None) (fun _ => false)) (u8 "./cache").
Proof. split; [discriminate|repeat constructor]. Qed.

(** C50: a text of words is broken into lines only between words, or between the pieces that textwrap splits words into; a line
    ends where the next piece does not fit. *)
Theorem C50_words : forall w s indent width l, splits w -> filter (fun c => negb (str_eqb c [])) (w_split w s) = l ->
  let room := Z.to_nat (width - Z.of_nat (List.length indent)) in pieces room l -> 0 < width ->
  exists first rest, broken room l (first :: rest) /\ rejoined (first :: rest) s /\
    wrapped_print w s indent width = Ok (map (fun r => (true, r)) ((indent ++ first) :: map (app (repeat 32%N (List.length indent))) rest)).
Proof. exact printed_broken. Qed.
Print Assumptions C50_words.
Example C50_words_ex : let l := [u8 "Az"; space; u8 "egy-"; u8 "egy"; space; u8 "szó"] in
  pieces 7 l /\ broken 7 l [u8 "Az egy-"; u8 "egy szó"] /\ rejoined [u8 "Az egy-"; u8 "egy szó"] (u8 "Az egy-egy szó").
Proof.
  assert (P : forall c, forallb (fun x => negb (isspace_chr x)) c && negb (str_eqb c []) && (List.length c <=? 7)%nat = true -> piece 7 c).
  { intros c H. apply andb_true_iff in H as [H L]. apply andb_true_iff in H as [H N]. split; [intros ->; discriminate|]. split; [|now apply Nat.leb_le]. apply Forall_forall. rewrite forallb_forall in H. intros x I. apply negb_true_iff. auto. }
  cbv zeta. repeat split.
  - repeat (first [apply ps_space; [apply P; reflexivity|]|apply ps_last; apply P; reflexivity|apply ps_joined; [apply P; reflexivity|]]).
  - apply (br_joined 7 [u8 "Az"; space; u8 "egy-"] [u8 "egy"; space; u8 "szó"]); [|vm_compute; lia|vm_compute; lia|].
    + apply ps_space; [apply P; reflexivity|apply ps_last; apply P; reflexivity].
    + apply (br_last 7 [u8 "egy"; space; u8 "szó"]); [|vm_compute; lia]. apply ps_space; [apply P; reflexivity|apply ps_last; apply P; reflexivity].
  - apply (rj_joined (u8 "Az egy-") [u8 "egy szó"] (u8 "egy szó")). apply rj_last.
Qed.
