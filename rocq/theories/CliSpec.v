(* What the command line program writes (C61). *)
From Verif Require Import PyBase IdModel LineModel DateModel RefModel TreeModel StructModel GazModel D2oModel CacheModel ExtModel HtmlModel TxtModel PipeModel CliModel.
Local Open Scope Z_scope.

(* an issue: a year and a number that int() can read, and a "/" between them *)
Definition issue_written (s : pystr) (year number : Z) : Prop :=
  exists y n, s = y ++ u8 "/" ++ n /\ ~ In 47%N y /\ py_int y = Ok year /\ py_int n = Ok number.

(* an act or a law with its name *)
Inductive document : obj -> pystr -> obj -> Prop :=
| doc_law x : document (ORaw x) (lw_identifier x) (ORaw x)
| doc_act a : document (OAct a) (act_identifier a) (OAct a)
| doc_structure a : document (OStruct a) (act_identifier a) (OAct a)
| doc_block a : document (OBlock a) (act_identifier a) (OAct a).
(* only one act is asked for; this is only looked at for whole acts and for laws *)
Definition asked (a : args) (identifier : pystr) : Prop :=
  ar_step a = structure_only \/ ar_step a = ba_only \/ forall i, ar_single_act a = Some i -> i = identifier.
(* [shown w a dir name o p t]: t is written to p for o, which is called name *)
Inductive shown (w : writers) (a : args) (dir name : pystr) : obj -> pystr -> pystr -> Prop :=
| sh_intro o d t out : document o name d -> asked a name -> output_fn w (ar_format a) d = Ok (t, out) ->
    shown w a dir name o (path_join dir (name ++ u8 "." ++ format_name (ar_format a))) t.
(* the content of a file after objects are written: that of the last one with this path, or what there was before *)
Inductive file_after (w : writers) (a : args) (dir : pystr) (l : list obj) (p : pystr) (before : option pystr) : option pystr -> Prop :=
| fa_written l1 o n l2 t : l = l1 ++ o :: l2 -> shown w a dir n o p t -> (forall o' n' t', In o' l2 -> ~ shown w a dir n' o' p t') -> file_after w a dir l p before (Some t)
| fa_same : (forall o n t, In o l -> ~ shown w a dir n o p t) -> file_after w a dir l p before before.

(* what each step gives: the raw text, the act with its structure alone, also with block amendments, or all *)
Inductive made_by : extraction_step -> obj -> Prop :=
| mb_raw x : made_by raw_act (ORaw x)
| mb_structure a : made_by structure_only (OStruct a)
| mb_amendments a : made_by ba_only (OBlock a)
| mb_full a : made_by full (OAct a).
