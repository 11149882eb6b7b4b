(* Writing JSON texts. *)
From Coq Require Import Lia Floats.SpecFloat.
From Coq Require Import ZifyBool ZifyNat ZifyN.
From Verif Require Import PyBase PyBaseFacts LineModel D2oModel D2oSpec JsonTextModel JsonTextSpec.
Local Open Scope Z_scope.

Lemma hex_digit_ok n : (n < 16)%N -> hex_char n (hex_digit n).
Proof. intros H. unfold hex_digit. destruct (n <? 10)%N eqn:E; [apply hc_digit|apply hc_lower]; lia. Qed.
Lemma hex4_ok n : (n < 65536)%N -> hex_quad n (hex4 n).
Proof.
  intros H. set (a := (n / 4096 mod 16)%N). set (b := (n / 256 mod 16)%N). set (c := (n / 16 mod 16)%N). set (d := (n mod 16)%N).
  assert (E : n = (((a * 16 + b) * 16 + c) * 16 + d)%N).
  { unfold a, b, c, d. rewrite (N.div_mod' n 16) at 1. rewrite (N.div_mod' (n / 16) 16) at 1. rewrite N.div_div by lia. change (16 * 16)%N with 256%N.
    rewrite (N.div_mod' (n / 256) 16) at 1. rewrite N.div_div by lia. change (256 * 16)%N with 4096%N.
    rewrite (N.mod_small (n / 4096) 16) by (apply N.div_lt_upper_bound; lia). lia. }
  rewrite E at 1. unfold hex4. fold a b c d. constructor; apply hex_digit_ok; apply N.mod_lt; lia.
Qed.
Lemma char_written ascii c s t : (ascii = true -> (c < 1114112)%N /\ ~ surrogate c) -> json_chars s t -> json_chars (c :: s) (json_char ascii c ++ t).
Proof.
  intros Ha H. unfold json_char.
  destruct (c =? 92)%N eqn:E; [apply N.eqb_eq in E; subst; apply (jc_short 92 92); [cbn; tauto|exact H]|]. apply N.eqb_neq in E.
  destruct (c =? 34)%N eqn:E1; [apply N.eqb_eq in E1; subst; apply (jc_short 34 34); [cbn; tauto|exact H]|]. apply N.eqb_neq in E1.
  destruct (c =? 8)%N eqn:E2; [apply N.eqb_eq in E2; subst; apply (jc_short 8 98); [cbn; tauto|exact H]|].
  destruct (c =? 12)%N eqn:E3; [apply N.eqb_eq in E3; subst; apply (jc_short 12 102); [cbn; tauto|exact H]|].
  destruct (c =? 10)%N eqn:E4; [apply N.eqb_eq in E4; subst; apply (jc_short 10 110); [cbn; tauto|exact H]|].
  destruct (c =? 13)%N eqn:E5; [apply N.eqb_eq in E5; subst; apply (jc_short 13 114); [cbn; tauto|exact H]|].
  destruct (c =? 9)%N eqn:E6; [apply N.eqb_eq in E6; subst; apply (jc_short 9 116); [cbn; tauto|exact H]|].
  destruct (c <? 32)%N eqn:E7; [unfold escape; rewrite <- app_assoc; apply jc_hex; [apply hex4_ok; lia|unfold surrogate; lia|exact H]|].
  destruct (negb ascii || (c <? 127)%N) eqn:E8; [apply jc_plain; [lia|exact E1|exact E|exact H]|].
  apply orb_false_iff in E8 as [E8 _]. apply negb_false_iff in E8. destruct (Ha E8) as [Hc Hs].
  destruct (c <? 65536)%N eqn:E9; [unfold escape; rewrite <- app_assoc; apply jc_hex; [apply hex4_ok; lia|exact Hs|exact H]|].
  assert (Q : ((c - 65536) / 1024 < 1024)%N) by (apply N.div_lt_upper_bound; lia). assert (R : ((c - 65536) mod 1024 < 1024)%N) by (apply N.mod_lt; lia).
  replace c with (65536 + (c - 65536) / 1024 * 1024 + (c - 65536) mod 1024)%N at 1 by (pose proof (N.div_mod' (c - 65536) 1024); lia).
  unfold escape. rewrite <- !app_assoc. apply jc_pair; [apply hex4_ok; lia|apply hex4_ok; lia|exact Q|exact R|exact H].
Qed.
Lemma string_written ascii s : (ascii = true -> whole_chars s) -> json_chars s (flat_map (json_char ascii) s).
Proof.
  induction s as [|c s IH]; intros H; [constructor|]. cbn [flat_map]. apply char_written; [intros E; specialize (H E); inversion H; assumption|].
  apply IH. intros E. specialize (H E). inversion H; assumption.
Qed.

Section writing.
Variables (st : style) (io : float_io).
Hypothesis law : float_law io.
Hypothesis spaces : forall i, st_indent st = Some i -> blank i.
Lemma line_blank n : blank (line_start st n).
Proof.
  unfold line_start. destruct (st_indent st) as [i|] eqn:E; [|constructor]. constructor; [cbn; tauto|].
  induction n as [|n IH]; cbn [repeat concat]; [constructor|]. apply Forall_app. split; [exact (spaces i eq_refl)|exact IH].
Qed.
Lemma float_written f : json_text io (VFloat f) (json_float io f).
Proof.
  assert (Fin : finite_float f -> json_text io (VFloat f) (fl_repr io f)) by (intros Hf; destruct (law f Hf) as [D R]; rewrite <- R at 1; now constructor).
  destruct f as [s|s| |s m e]; cbn [json_float].
  - apply Fin. split; [discriminate|intros; discriminate].
  - destruct s; constructor.
  - constructor.
  - apply Fin. split; [discriminate|intros; discriminate].
Qed.
Definition writes (v : value) : Prop := forall n, exists t, encode st io n v = Ok t /\ json_text io v t.
Lemma items_written n l : Forall writes l -> exists ts, all_ok (map (encode st io n) l) = Ok ts /\ List.length ts = List.length l /\
  (l <> [] -> forall b, blank b -> json_items io l (line_start st n ++ join_str (u8 "," ++ line_start st n) ts ++ b)).
Proof.
  intros H. induction H as [|v l Hv _ (ts & E & L & IH)]; [exists []; split; [reflexivity|split; [reflexivity|congruence]]|].
  destruct (Hv n) as (t & Et & Jt). exists (t :: ts). cbn [map all_ok]. rewrite Et. cbn [bind]. rewrite E. cbn [bind]. split; [reflexivity|]. split; [cbn; congruence|]. intros _ b Hb.
  destruct l as [|w l]; destruct ts as [|u ts]; try discriminate L.
  - cbn [join_str]. apply ji_one; [exact Jt|apply line_blank|exact Hb].
  - replace (line_start st n ++ join_str (u8 "," ++ line_start st n) (t :: u :: ts) ++ b) with (line_start st n ++ t ++ [] ++ u8 "," ++ line_start st n ++ join_str (u8 "," ++ line_start st n) (u :: ts) ++ b).
    + apply ji_more; [exact Jt|apply line_blank|constructor|]. apply IH; [discriminate|exact Hb].
    + change (join_str (u8 "," ++ line_start st n) (t :: u :: ts)) with (t ++ (u8 "," ++ line_start st n) ++ join_str (u8 "," ++ line_start st n) (u :: ts)). rewrite <- !app_assoc. reflexivity.
Qed.
Lemma separator_blank : exists b, key_separator st = u8 ":" ++ b /\ blank b.
Proof. unfold key_separator. destruct (st_indent st); [exists (u8 " "); split; [reflexivity|constructor; [cbn; tauto|constructor]]|exists []; split; [reflexivity|constructor]]. Qed.
Lemma members_written n l : Forall (fun kv => writes (snd kv) /\ (st_ascii st = true -> whole_chars (fst kv))) l ->
  exists ts, all_ok (map (fun kv => t <- encode st io n (snd kv) ;; Ok (json_string (st_ascii st) (fst kv) ++ key_separator st ++ t)) l) = Ok ts /\ List.length ts = List.length l /\
  (l <> [] -> forall b, blank b -> json_members io l (line_start st n ++ join_str (u8 "," ++ line_start st n) ts ++ b)).
Proof.
  intros H. destruct separator_blank as (sp & Esp & Hsp).
  induction H as [|[k v] l [Hv Hk] _ (ts & E & L & IH)]; [exists []; split; [reflexivity|split; [reflexivity|congruence]]|].
  destruct (Hv n) as (t & Et & Jt). cbn [fst snd] in *. set (kt := json_string (st_ascii st) k ++ key_separator st ++ t). exists (kt :: ts).
  cbn [map all_ok fst snd]. rewrite Et. cbn [bind]. rewrite E. cbn [bind]. split; [reflexivity|]. split; [cbn; congruence|]. intros _ b Hb.
  pose proof (string_written _ _ Hk) as Jk.
  assert (EE : forall r, kt ++ r = u8 """" ++ flat_map (json_char (st_ascii st)) k ++ u8 """" ++ [] ++ u8 ":" ++ sp ++ t ++ r).
  { intros r. unfold kt, json_string. rewrite Esp. rewrite <- !app_assoc. reflexivity. }
  destruct l as [|w l]; destruct ts as [|u ts]; try discriminate L.
  - cbn [join_str]. rewrite EE. apply jm_one; [exact Jk|exact Jt|apply line_blank|constructor|exact Hsp|exact Hb].
  - replace (line_start st n ++ join_str (u8 "," ++ line_start st n) (kt :: u :: ts) ++ b) with (line_start st n ++ kt ++ [] ++ u8 "," ++ line_start st n ++ join_str (u8 "," ++ line_start st n) (u :: ts) ++ b).
    + rewrite EE. apply jm_more; [exact Jk|exact Jt|apply line_blank|constructor|exact Hsp|constructor|]. apply IH; [discriminate|exact Hb].
    + change (join_str (u8 "," ++ line_start st n) (kt :: u :: ts)) with (kt ++ (u8 "," ++ line_start st n) ++ join_str (u8 "," ++ line_start st n) (u :: ts)). rewrite <- !app_assoc. reflexivity.
Qed.
Theorem value_written : forall v, plain v -> (st_ascii st = true -> forall s, string_in s v -> whole_chars s) -> writes v.
Proof.
  fix IH 1. intros v Hp Hs. destruct v as [b|i|f|s| |l|l|l|e m|c|c fs]; try (exfalso; inversion Hp; fail).
  - intros n. destruct b; eexists; (split; [reflexivity|constructor]).
  - intros n. eexists; (split; [reflexivity|constructor]).
  - intros n. eexists; split; [reflexivity|apply float_written].
  - intros n. eexists; split; [reflexivity|]. apply jt_string. apply string_written. intros E. apply (Hs E). constructor.
  - intros n. eexists; (split; [reflexivity|constructor]).
  - assert (F : Forall writes l).
    { assert (G : Forall plain l) by (inversion Hp; assumption). assert (K : st_ascii st = true -> forall s v, In v l -> string_in s v -> whole_chars s) by (intros E s v Hi Hv; apply (Hs E); eapply si_item; eassumption).
      clear Hp Hs. induction l as [|v l IHl]; [constructor|]. constructor; [apply IH; [inversion G; assumption|intros E s Hv; apply (K E s v); [left; reflexivity|exact Hv]]|].
      apply IHl; [inversion G; assumption|intros E s w Hi Hv; apply (K E s w); [right; exact Hi|exact Hv]]. }
    intros n. destruct l as [|v l]; [exists (u8 "[" ++ [] ++ u8 "]"); split; [reflexivity|apply jt_no_items; constructor]|].
    destruct (items_written (S n) _ F) as (ts & E & _ & J).
    change (encode st io n (VList (v :: l))) with (items <- all_ok (map (encode st io (S n)) (v :: l)) ;; Ok (u8 "[" ++ line_start st (S n) ++ join_str (u8 "," ++ line_start st (S n)) items ++ line_start st n ++ u8 "]")).
    rewrite E. cbn [bind]. eexists. split; [reflexivity|].
    replace (u8 "[" ++ line_start st (S n) ++ join_str (u8 "," ++ line_start st (S n)) ts ++ line_start st n ++ u8 "]") with (u8 "[" ++ (line_start st (S n) ++ join_str (u8 "," ++ line_start st (S n)) ts ++ line_start st n) ++ u8 "]") by (now rewrite <- !app_assoc).
    apply jt_list. apply J; [discriminate|apply line_blank].
  - assert (F : Forall (fun kv => writes (snd kv) /\ (st_ascii st = true -> whole_chars (fst kv))) l).
    { assert (G : Forall (fun kv => plain (snd kv)) l) by (inversion Hp; assumption).
      assert (K : st_ascii st = true -> forall s k v, In (k, v) l -> string_in s v -> whole_chars s) by (intros E s k v Hi Hv; apply (Hs E); eapply si_value; eassumption).
      assert (Q : st_ascii st = true -> forall k v, In (k, v) l -> whole_chars k) by (intros E k v Hi; apply (Hs E); eapply si_key; eassumption).
      clear Hp Hs. induction l as [|[k v] l IHl]; [constructor|]. constructor; [split; [apply IH; [inversion G; assumption|intros E s Hv; apply (K E s k v); [left; reflexivity|exact Hv]]|intros E; apply (Q E k v); left; reflexivity]|].
      apply IHl; [inversion G; assumption|intros E s k' w Hi Hv; apply (K E s k' w); [right; exact Hi|exact Hv]|intros E k' w Hi; apply (Q E k' w); right; exact Hi]. }
    assert (ND : NoDup (map fst l)) by (inversion Hp; assumption).
    intros n. destruct l as [|kv l]; [exists (u8 "{" ++ [] ++ u8 "}"); split; [reflexivity|apply jt_no_members; constructor]|].
    destruct (members_written (S n) _ F) as (ts & E & _ & J).
    change (encode st io n (VDict (kv :: l))) with (items <- all_ok (map (fun kv => t <- encode st io (S n) (snd kv) ;; Ok (json_string (st_ascii st) (fst kv) ++ key_separator st ++ t)) (kv :: l)) ;;
      Ok (u8 "{" ++ line_start st (S n) ++ join_str (u8 "," ++ line_start st (S n)) items ++ line_start st n ++ u8 "}")).
    rewrite E. cbn [bind]. eexists. split; [reflexivity|].
    replace (u8 "{" ++ line_start st (S n) ++ join_str (u8 "," ++ line_start st (S n)) ts ++ line_start st n ++ u8 "}") with (u8 "{" ++ (line_start st (S n) ++ join_str (u8 "," ++ line_start st (S n)) ts ++ line_start st n) ++ u8 "}") by (now rewrite <- !app_assoc).
    apply jt_dict; [apply J; [discriminate|apply line_blank]|exact ND].
Qed.
End writing.

Theorem dump_text st io v : float_law io -> (forall i, st_indent st = Some i -> blank i) -> plain v -> (st_ascii st = true -> forall s, string_in s v -> whole_chars s) ->
  exists t, json_dump st io v = Ok t /\ json_text io v t.
Proof. intros L B P W. exact (value_written st io L B v P W 0%nat). Qed.

(** * Texts in ASCII *)

Lemma hex4_ascii n : ascii_text (hex4 n).
Proof.
  unfold hex4, ascii_text. assert (H : forall m, (m < 16)%N -> (32 <= hex_digit m < 127)%N) by (intros m H; unfold hex_digit; destruct (m <? 10)%N; lia).
  repeat (constructor; [apply H, N.mod_lt; lia|]). constructor.
Qed.
Ltac ascii_now := unfold ascii_text; repeat (first [apply Forall_nil | apply Forall_cons; [clear; lia|]]).
Lemma char_ascii c : ascii_text (json_char true c).
Proof.
  unfold json_char, escape, ascii_text. repeat match goal with |- context[if ?b then _ else _] => destruct b eqn:? end;
    repeat first [apply Forall_app; split | apply Forall_cons; [lia|] | apply Forall_nil | apply hex4_ascii].
Qed.
Lemma string_ascii s : ascii_text (json_string true s).
Proof.
  unfold json_string, ascii_text. apply Forall_app. split; [ascii_now|]. apply Forall_app. split; [|ascii_now].
  induction s as [|c s IH]; cbn [flat_map]; [constructor|]. apply Forall_app. split; [apply char_ascii|exact IH].
Qed.
Lemma int_ascii i : ascii_text (str_of_int i).
Proof.
  assert (D : forall n, ascii_text (dec_N n)) by (intros n; pose proof (dec_N_digits n) as H; unfold ascii_digits in H; unfold ascii_text; eapply Forall_impl; [|exact H]; cbn; intros; lia).
  unfold str_of_int. destruct (i <? 0); [apply Forall_cons; [lia|apply D]|apply D].
Qed.
Lemma digits_ascii s : Forall digit s -> ascii_text s.
Proof. intros H. unfold ascii_text. eapply Forall_impl; [|exact H]. unfold digit. intros; lia. Qed.
Lemma decimal_ascii s : decimal s -> ascii_text s.
Proof.
  intros (sign & i & f & e & -> & Hs & Hi & Hf & He & _). unfold ascii_text. cbn [In] in Hs. repeat (rewrite Forall_app); repeat split.
  - destruct Hs as [<-|[<-|[]]]; ascii_now.
  - destruct Hi as [->|(c & t & -> & Hc & Ht)]; [ascii_now|]. apply Forall_cons; [lia|exact (digits_ascii _ Ht)].
  - destruct Hf as [->|(t & -> & _ & Ht)]; [constructor|]. apply Forall_cons; [lia|exact (digits_ascii _ Ht)].
  - destruct He as [->|(c & sg & t & -> & Hc & Hsg & _ & Ht)]; [constructor|]. cbn [In] in Hc, Hsg. repeat (rewrite Forall_app); repeat split; [| |exact (digits_ascii _ Ht)].
    + destruct Hc as [<-|[<-|[]]]; ascii_now.
    + destruct Hsg as [<-|[<-|[<-|[]]]]; ascii_now.
Qed.
Lemma join_ascii ts : Forall ascii_text ts -> ascii_text (join_str (u8 "," ++ []) ts).
Proof.
  induction ts as [|t ts IH]; intros H; [constructor|]. inversion H as [|? ? H1 H2]; subst. destruct ts as [|u ts]; [exact H1|].
  change (join_str (u8 "," ++ []) (t :: u :: ts)) with (t ++ (u8 "," ++ []) ++ join_str (u8 "," ++ []) (u :: ts)). apply Forall_app. split; [exact H1|]. apply Forall_app. split; [ascii_now|exact (IH H2)].
Qed.
Section ascii.
Variable io : float_io.
Hypothesis law : float_law io.
Definition plainly (v : value) : Prop := forall n t, encode cache_style io n v = Ok t -> ascii_text t.
Lemma items_ascii {A} (enc : A -> res pystr) l ts : (forall x, In x l -> forall t, enc x = Ok t -> ascii_text t) -> all_ok (map enc l) = Ok ts -> Forall ascii_text ts.
Proof.
  revert ts. induction l as [|x l IH]; intros ts H E; cbn [map all_ok] in E; [injection E as <-; constructor|].
  apply bind_ok in E as (t & Et & E). apply bind_ok in E as (us & Eu & E). injection E as <-. constructor; [exact (H x (or_introl eq_refl) t Et)|].
  apply IH; [intros y Hy; apply H; right; exact Hy|exact Eu].
Qed.
Theorem value_ascii : forall v, plainly v.
Proof.
  fix IH 1. intros v n t E. destruct v as [b|i|f|s| |l|l|l|e m|c|c fs]; try discriminate E.
  - destruct b; injection E as <-; ascii_now.
  - injection E as <-. apply int_ascii.
  - injection E as <-. assert (Fin : finite_float f -> ascii_text (fl_repr io f)) by (intros Hf; destruct (law f Hf) as [D _]; exact (decimal_ascii _ D)).
    destruct f as [s|s| |s m e]; cbn [json_float]; [apply Fin; split; [discriminate|intros; discriminate]|destruct s; ascii_now|ascii_now|apply Fin; split; [discriminate|intros; discriminate]].
  - injection E as <-. apply string_ascii.
  - injection E as <-. ascii_now.
  - assert (F : forall x, In x l -> forall n t, encode cache_style io n x = Ok t -> ascii_text t).
    { clear E. induction l as [|y l IHl]; [intros x []|]. intros x [<-|Hx]; [exact (IH y)|exact (IHl x Hx)]. }
    destruct l as [|y l]; [injection E as <-; ascii_now|].
    change (encode cache_style io n (VList (y :: l))) with (items <- all_ok (map (encode cache_style io (S n)) (y :: l)) ;; Ok (u8 "[" ++ [] ++ join_str (u8 "," ++ []) items ++ [] ++ u8 "]")) in E.
    apply bind_ok in E as (ts & Et & E). injection E as <-. apply Forall_cons; [lia|]. cbn [app]. apply Forall_app. split; [|ascii_now]. apply join_ascii. eapply items_ascii; [|exact Et]. intros x Hx u Eu. exact (F x Hx _ _ Eu).
  - assert (F : forall x, In x l -> forall n t, encode cache_style io n x = Ok t -> ascii_text t).
    { clear E. induction l as [|y l IHl]; [intros x []|]. intros x [<-|Hx]; [exact (IH y)|exact (IHl x Hx)]. }
    destruct l as [|y l]; [injection E as <-; ascii_now|].
    change (encode cache_style io n (VTuple (y :: l))) with (items <- all_ok (map (encode cache_style io (S n)) (y :: l)) ;; Ok (u8 "[" ++ [] ++ join_str (u8 "," ++ []) items ++ [] ++ u8 "]")) in E.
    apply bind_ok in E as (ts & Et & E). injection E as <-. apply Forall_cons; [lia|]. cbn [app]. apply Forall_app. split; [|ascii_now]. apply join_ascii. eapply items_ascii; [|exact Et]. intros x Hx u Eu. exact (F x Hx _ _ Eu).
  - assert (F : forall x, In x l -> forall n t, encode cache_style io n (snd x) = Ok t -> ascii_text t).
    { clear E. induction l as [|[k y] l IHl]; [intros x []|]. intros x [<-|Hx]; [exact (IH y)|exact (IHl x Hx)]. }
    destruct l as [|y l]; [injection E as <-; ascii_now|].
    change (encode cache_style io n (VDict (y :: l))) with (items <- all_ok (map (fun kv => t <- encode cache_style io (S n) (snd kv) ;; Ok (json_string true (fst kv) ++ u8 ":" ++ t)) (y :: l)) ;;
      Ok (u8 "{" ++ [] ++ join_str (u8 "," ++ []) items ++ [] ++ u8 "}")) in E.
    apply bind_ok in E as (ts & Et & E). injection E as <-. apply Forall_cons; [lia|]. cbn [app]. apply Forall_app. split; [|ascii_now]. apply join_ascii. eapply items_ascii; [|exact Et].
    intros x Hx u Eu. cbn beta in Eu. apply bind_ok in Eu as (w & Ew & Eu). injection Eu as <-. apply (proj2 (Forall_app (fun c => (32 <= c < 127)%N) (json_string true (fst x)) _)). split; [apply string_ascii|]. apply Forall_cons; [lia|exact (F x Hx _ _ Ew)].
Qed.
End ascii.
