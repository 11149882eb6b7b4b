(* generate_act_to_mk_issue.py: the list of acts and the issues they were published in. *)
From Verif Require Import PyBase LineModel.
Local Open Scope Z_scope.

(** * The parser *)

(* What html.parser calls for a document; attributes are not used. *)
Inductive html_event := HStart (tag : pystr) | HEnd (tag : pystr) | HData (data : pystr).
(* generate_act_to_mk_issue.py:12-16 *)
Record mk_parser := mk_state { mp_stack : list pystr; mp_tags : list (list pystr * pystr) }.
Definition new_parser : mk_parser := mk_state [] [].
(* generate_act_to_mk_issue.py:21-23: the stack gets shorter in every step *)
Fixpoint pop_while (n : nat) (tag : pystr) (stack : list pystr) : list pystr :=
  match n with
  | O => stack
  | S n' => if mem_str tag stack then pop_while n' tag (removelast stack) else stack
  end.
(* generate_act_to_mk_issue.py:18-32 *)
Definition handle (e : html_event) (p : mk_parser) : mk_parser :=
  match e with
  | HStart tag => mk_state (mp_stack p ++ [tag]) (mp_tags p)
  | HEnd tag => mk_state (pop_while (List.length (mp_stack p)) tag (mp_stack p)) (mp_tags p)
  | HData data =>
      let data := replace_str [160%N] (u8 " ") (str_strip data) in
      match data with
      | [] => p
      | _ => mk_state (mp_stack p) (mp_tags p ++ [(mp_stack p, data)])
      end
  end.
Definition feed (es : list html_event) (p : mk_parser) : mk_parser := fold_left (fun p e => handle e p) es p.

(** * Issues *)

(* generate_act_to_mk_issue.py:8 *)
Definition contents_url (year issue : Z) : pystr :=
  u8 "http://www.kozlonyok.hu/nkonline/index.php?menuindex=200&pageindex=kozltart&ev=" ++ str_of_int year ++ u8 "&szam=" ++ str_of_int issue.
(* generate_act_to_mk_issue.py:9: match of 20..\. évi .* törvény; . is any character but a line break *)
Fixpoint same_line_find (pat s : pystr) : bool :=
  startswith pat s || match s with [] => false | c :: t => negb (N.eqb c 10) && same_line_find pat t end.
Definition act_id_match (s : pystr) : bool :=
  match s with
  | a :: b :: c :: d :: t =>
      startswith (u8 "20") [a; b] && negb (N.eqb c 10) && negb (N.eqb d 10) && startswith (u8 ". évi ") t &&
      same_line_find (u8 " törvény") (skipn 6 t)
  | _ => false
  end.
(* generate_act_to_mk_issue.py:48-50 *)
Definition table_row (year issue : Z) (id data : pystr) : pystr :=
  let data := if mem_chr 44 data then u8 """" ++ data ++ u8 """" else data in
  str_of_int year ++ u8 "," ++ str_of_int issue ++ u8 "," ++ id ++ u8 "," ++ data.
(* generate_act_to_mk_issue.py:43-51 *)
Fixpoint table_rows (year issue : Z) (previous_id : option pystr) (texts : list pystr) : list pystr :=
  match texts with
  | [] => []
  | data :: rest =>
      if act_id_match data then table_rows year issue (Some data) rest
      else match previous_id with
           | Some id => table_row year issue id data :: table_rows year issue None rest
           | None => table_rows year issue None rest
           end
  end.

(* What is not modelled: the server, the windows-1250 table, and html.parser. *)
Record script_env := mk_script_env { se_urlopen : pystr -> res (list N); se_decode : list N -> res pystr; se_html : pystr -> list html_event }.
(* generate_act_to_mk_issue.py:38-51: the printed lines; everything is read before the first one is printed *)
Definition parse_single_issue (e : script_env) (year issue : Z) : res (list pystr) :=
  downloaded <- se_urlopen e (contents_url year issue) ;;
  text <- se_decode e downloaded ;;
  Ok (table_rows year issue None (map snd (mp_tags (feed (se_html e text) new_parser)))).
(* range(a, b) *)
Definition py_range (a b : Z) : list Z := map (fun k => a + Z.of_nat k) (seq 0 (Z.to_nat (b - a))).
(* generate_act_to_mk_issue.py:54-57: the requests, and the lines up to the first error *)
Fixpoint parse_issues (e : script_env) (l : list (Z * Z)) : list pystr * gen pystr :=
  match l with
  | [] => ([], mk_gen [] None)
  | (y, i) :: rest =>
      match parse_single_issue e y i with
      | Err x => ([contents_url y i], mk_gen [] (Some x))
      | Ok lines => let r := parse_issues e rest in (contents_url y i :: fst r, mk_gen (lines ++ g_items (snd r)) (g_end (snd r)))
      end
  end.
Definition parse_all (e : script_env) : list pystr * gen pystr :=
  parse_issues e (flat_map (fun y => map (fun i => (y, i)) (py_range 1 360)) (py_range 2009 2020)).
