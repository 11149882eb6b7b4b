(* What the cache promises (C47) and the names of issues (C51). *)
From Verif Require Import PyBase LineModel PdfModel D2oModel D2oSpec D2oHun CacheModel.
Local Open Scope Z_scope.

(* what gzip and json do: data comes back from a whole file and nothing from a part of it *)
Definition codec (write : value -> bytes) (read : bytes -> res value) : Prop :=
  forall x, plain x -> read (write x) = Ok x /\ forall k, (k < List.length (write x))%nat -> exists e, read (firstn k (write x)) = Err e.

Definition relative (name : pystr) : Prop := startswith (u8 "/") name = false.
(* where a file can be written *)
Definition can_write (s : fs) (p : pystr) : Prop := fs_dir s p = false /\ (path_dirname p = [] \/ fs_dir s (path_dirname p) = true).
Definition absent (s : fs) (p : pystr) : Prop := fs_file s p = None /\ fs_dir s p = false.
(* the directory of a file exists, and the file is not a directory *)
Definition fs_ok (s : fs) : Prop := forall p b, fs_file s p = Some b -> can_write s p.
(* the directory of p can be made *)
Definition can_make (s : fs) (d : pystr) : Prop := d <> [] /\ Forall (fun q => fs_file s q = None) (d :: path_parents [] d).

(* A history: uses of the cache, each of which may be killed after some of its steps *)
Inductive use := UBytes (name : pystr) (data : bytes) | UJson (name : pystr) (x : value) | URead (name : pystr).
Definition use_name (u : use) : pystr := match u with UBytes n _ => n | UJson n _ => n | URead n => n end.
Definition use_states (write : value -> bytes) (dir : pystr) (u : use) (s : fs) : list fs :=
  match u with
  | UBytes n data => o_states (write_bytes (path_join dir n) data s)
  | UJson n x => o_states (write_json write (path_join dir n) x s)
  | URead _ => []
  end.
(* [history s us t]: after the uses us, whole or not, the file system has gone from s to t *)
Inductive history (write : value -> bytes) (dir : pystr) : fs -> list use -> fs -> Prop :=
| h_end s : history write dir s [] s
| h_use s u us s' t : In s' (s :: use_states write dir u s) -> history write dir s' us t -> history write dir s (u :: us) t.
