(* The json module, as far as it is used: json.dump in output/json.py:23-29 and cache.py:44-46, json.load in cache.py:40-42. *)
From Coq Require Import Floats.SpecFloat.
From Verif Require Import PyBase LineModel D2oModel.
Local Open Scope Z_scope.

(* What is not modelled: the digits that float.__repr__ chooses, and the rounding of float(). *)
Record float_io := mk_float_io { fl_repr : pyfloat -> pystr; fl_read : pystr -> pyfloat }.

(** * json.dump *)

(* indent, ensure_ascii.  The separators of cache.py:46 are ',' and ':', those of output/json.py:24-29 the default ones with an
   indent, ',' and ': '. *)
Record style := mk_style { st_indent : option pystr; st_ascii : bool }.
Definition file_style : style := mk_style (Some (u8 "  ")) false.
Definition cache_style : style := mk_style None true.

(* '{0:04x}' *)
Definition hex_digit (n : N) : N := if (n <? 10)%N then (48 + n)%N else (87 + n)%N.
Definition hex4 (n : N) : pystr := [hex_digit (n / 4096 mod 16); hex_digit (n / 256 mod 16); hex_digit (n / 16 mod 16); hex_digit (n mod 16)]%N.
Definition escape (n : N) : pystr := [92; 117]%N ++ hex4 n.
(* json/encoder.py: ESCAPE_DCT, py_encode_basestring, py_encode_basestring_ascii *)
Definition json_char (ascii : bool) (c : N) : pystr :=
  if N.eqb c 92 then [92; 92]%N else if N.eqb c 34 then [92; 34]%N else if N.eqb c 8 then [92; 98]%N else if N.eqb c 12 then [92; 102]%N
  else if N.eqb c 10 then [92; 110]%N else if N.eqb c 13 then [92; 114]%N else if N.eqb c 9 then [92; 116]%N
  else if (c <? 32)%N then escape c
  else if negb ascii || (c <? 127)%N then [c]
  else if (c <? 65536)%N then escape c
  else escape (55296 + (c - 65536) / 1024) ++ escape (56320 + (c - 65536) mod 1024).
Definition json_string (ascii : bool) (s : pystr) : pystr := [34%N] ++ flat_map (json_char ascii) s ++ [34%N].
(* json/encoder.py: floatstr *)
Definition json_float (io : float_io) (f : pyfloat) : pystr :=
  match f with
  | S754_nan => u8 "NaN"
  | S754_infinity s => if s then u8 "-Infinity" else u8 "Infinity"
  | _ => fl_repr io f
  end.
Definition line_start (st : style) (level : nat) : pystr :=
  match st_indent st with None => [] | Some i => [10%N] ++ concat (repeat i level) end.
Definition key_separator (st : style) : pystr := match st_indent st with None => u8 ":" | Some _ => u8 ": " end.
Fixpoint all_ok {A} (l : list (res A)) : res (list A) :=
  match l with
  | [] => Ok []
  | r :: t => x <- r ;; xs <- all_ok t ;; Ok (x :: xs)
  end.
(* json/encoder.py: _make_iterencode *)
Fixpoint encode (st : style) (io : float_io) (level : nat) (v : value) {struct v} : res pystr :=
  match v with
  | VNone => Ok (u8 "null")
  | VBool true => Ok (u8 "true")
  | VBool false => Ok (u8 "false")
  | VInt i => Ok (str_of_int i)
  | VFloat f => Ok (json_float io f)
  | VStr s => Ok (json_string (st_ascii st) s)
  | VList [] | VTuple [] => Ok (u8 "[]")
  | VList l | VTuple l =>
      items <- all_ok (map (encode st io (S level)) l) ;;
      Ok (u8 "[" ++ line_start st (S level) ++ join_str (u8 "," ++ line_start st (S level)) items ++ line_start st level ++ u8 "]")
  | VDict [] => Ok (u8 "{}")
  | VDict l =>
      items <- all_ok (map (fun kv => t <- encode st io (S level) (snd kv) ;; Ok (json_string (st_ascii st) (fst kv) ++ key_separator st ++ t)) l) ;;
      Ok (u8 "{" ++ line_start st (S level) ++ join_str (u8 "," ++ line_start st (S level)) items ++ line_start st level ++ u8 "}")
  | VEnum _ _ | VType _ | VObj _ _ => Err TypeError
  end.
Definition json_dump (st : style) (io : float_io) (v : value) : res pystr := encode st io 0 v.

(** * json.load: Modules/_json.c; every error is a ValueError *)

Definition json_space (c : N) : bool := (N.eqb c 32 || N.eqb c 9 || N.eqb c 10 || N.eqb c 13)%bool.
Definition skip_space (s : pystr) : pystr := drop_while json_space s.
Definition hex_value (c : N) : option N :=
  if (48 <=? c)%N && (c <=? 57)%N then Some (c - 48)%N else if (97 <=? c)%N && (c <=? 102)%N then Some (c - 87)%N
  else if (65 <=? c)%N && (c <=? 70)%N then Some (c - 55)%N else None.
(* four hexadecimal digits, and what follows *)
Definition read_hex4 (s : pystr) : option (N * pystr) :=
  match s with
  | a :: b :: c :: d :: t =>
      match hex_value a, hex_value b, hex_value c, hex_value d with
      | Some a', Some b', Some c', Some d' => Some ((((a' * 16 + b') * 16 + c') * 16 + d')%N, t)
      | _, _, _, _ => None
      end
  | _ => None
  end.
Definition single_escape (c : N) : option N :=
  if N.eqb c 34 then Some 34%N else if N.eqb c 92 then Some 92%N else if N.eqb c 47 then Some 47%N else if N.eqb c 98 then Some 8%N
  else if N.eqb c 102 then Some 12%N else if N.eqb c 110 then Some 10%N else if N.eqb c 114 then Some 13%N else if N.eqb c 116 then Some 9%N else None.
(* behind a backslash: a character, and what follows *)
Definition read_escape (s : pystr) : res (N * pystr) :=
  match s with
  | [] => Err ValueError
  | e :: t =>
      if N.eqb e 117 then
        match read_hex4 t with
        | None => Err ValueError
        | Some (u, r) =>
            if ((55296 <=? u) && (u <=? 56319))%N then
              match r with
              | b :: v :: r' =>
                  if N.eqb b 92 && N.eqb v 117 then
                    match read_hex4 r' with
                    | None => Err ValueError
                    | Some (u2, r2) =>
                        if ((56320 <=? u2) && (u2 <=? 57343))%N then Ok ((65536 + (u - 55296) * 1024 + (u2 - 56320))%N, r2) else Ok (u, r)
                    end
                  else Ok (u, r)
              | _ => Ok (u, r)
              end
            else Ok (u, r)
        end
      else match single_escape e with Some c => Ok (c, t) | None => Err ValueError end
  end.
(* the rest of a string, from behind its opening quote *)
Fixpoint scan_string (fuel : nat) (s : pystr) : res (pystr * pystr) :=
  match fuel with
  | O => Err ValueError
  | S f =>
      match s with
      | [] => Err ValueError
      | c :: t =>
          if N.eqb c 34 then Ok ([], t)
          else if N.eqb c 92 then r <- read_escape t ;; x <- scan_string f (snd r) ;; Ok (fst r :: fst x, snd x)
          else if (c <? 32)%N then Err ValueError
          else x <- scan_string f t ;; Ok (c :: fst x, snd x)
      end
  end.
Definition is_digit (c : N) : bool := ((48 <=? c) && (c <=? 57))%N.
Definition digits (s : pystr) : pystr * pystr := (take_while is_digit s, drop_while is_digit s).
(* the sign and the digits before the point *)
Definition scan_integer (s : pystr) : option (pystr * pystr) :=
  let (sign, t) := match s with c :: t => if N.eqb c 45 then ([45%N], t) else ([], s) | [] => ([], []) end in
  match t with
  | c :: r => if N.eqb c 48 then Some (sign ++ [48%N], r) else if is_digit c then Some (sign ++ fst (digits t), snd (digits t)) else None
  | [] => None
  end.
Definition scan_fraction (s : pystr) : pystr * pystr :=
  match s with
  | c :: t => if N.eqb c 46 && negb (str_eqb (fst (digits t)) []) then ([46%N] ++ fst (digits t), snd (digits t)) else ([], s)
  | [] => ([], s)
  end.
Definition scan_exponent (s : pystr) : pystr * pystr :=
  match s with
  | c :: t =>
      if N.eqb c 101 || N.eqb c 69 then
        let (sign, r) := match t with d :: r => if N.eqb d 43 || N.eqb d 45 then ([d], r) else ([], t) | [] => ([], t) end in
        if negb (str_eqb (fst (digits r)) []) then ([c] ++ sign ++ fst (digits r), snd (digits r)) else ([], s)
      else ([], s)
  | [] => ([], s)
  end.
Definition scan_number (io : float_io) (s : pystr) : res (value * pystr) :=
  match scan_integer s with
  | None => Err ValueError
  | Some (i, r) =>
      let (f, r) := scan_fraction r in
      let (e, r) := scan_exponent r in
      match f ++ e with
      | [] => n <- py_int i ;; Ok (VInt n, r)
      | _ => Ok (VFloat (fl_read io (i ++ f ++ e)), r)
      end
  end.
Definition word (w : pystr) (v : value) (s : pystr) : res (value * pystr) :=
  if startswith w s then Ok (v, skipn (List.length w) s) else Err ValueError.
(* dict(pairs): a later value replaces an earlier one *)
Definition dict_of (l : list (pystr * value)) : list (pystr * value) := fold_left (fun d kv => dict_set str_eqb (fst kv) (snd kv) d) l [].

Fixpoint scan_once (io : float_io) (fuel : nat) (s : pystr) : res (value * pystr) :=
  match fuel with
  | O => Err ValueError
  | S f =>
      match s with
      | [] => Err ValueError
      | c :: t =>
          if N.eqb c 34 then r <- scan_string f t ;; Ok (VStr (fst r), snd r)
          else if N.eqb c 123 then
            match skip_space t with
            | d :: t' => if N.eqb d 125 then Ok (VDict [], t') else r <- scan_members io f (d :: t') ;; Ok (VDict (dict_of (fst r)), snd r)
            | [] => Err ValueError
            end
          else if N.eqb c 91 then
            match skip_space t with
            | d :: t' => if N.eqb d 93 then Ok (VList [], t') else r <- scan_items io f (d :: t') ;; Ok (VList (fst r), snd r)
            | [] => Err ValueError
            end
          else if N.eqb c 110 then word (u8 "null") VNone s
          else if N.eqb c 116 then word (u8 "true") (VBool true) s
          else if N.eqb c 102 then word (u8 "false") (VBool false) s
          else if N.eqb c 78 then word (u8 "NaN") (VFloat S754_nan) s
          else if N.eqb c 73 then word (u8 "Infinity") (VFloat (S754_infinity false)) s
          else if startswith (u8 "-Infinity") s then Ok (VFloat (S754_infinity true), skipn 9 s)
          else scan_number io s
      end
  end
(* values up to the closing bracket *)
with scan_items (io : float_io) (fuel : nat) (s : pystr) : res (list value * pystr) :=
  match fuel with
  | O => Err ValueError
  | S f =>
      x <- scan_once io f s ;;
      match skip_space (snd x) with
      | c :: t => if N.eqb c 93 then Ok ([fst x], t)
                  else if N.eqb c 44 then r <- scan_items io f (skip_space t) ;; Ok (fst x :: fst r, snd r) else Err ValueError
      | [] => Err ValueError
      end
  end
(* keys and values up to the closing brace *)
with scan_members (io : float_io) (fuel : nat) (s : pystr) : res (list (pystr * value) * pystr) :=
  match fuel with
  | O => Err ValueError
  | S f =>
      match s with
      | [] => Err ValueError
      | q :: t =>
          if negb (N.eqb q 34) then Err ValueError else
          k <- scan_string f t ;;
          match skip_space (snd k) with
          | c :: t => if negb (N.eqb c 58) then Err ValueError else
              x <- scan_once io f (skip_space t) ;;
              match skip_space (snd x) with
              | d :: t => if N.eqb d 125 then Ok ([(fst k, fst x)], t)
                          else if N.eqb d 44 then r <- scan_members io f (skip_space t) ;; Ok ((fst k, fst x) :: fst r, snd r) else Err ValueError
              | [] => Err ValueError
              end
          | [] => Err ValueError
          end
      end
  end.
(* json/decoder.py: decode.  Every call above but the first is on a shorter text. *)
Definition json_load (io : float_io) (s : pystr) : res value :=
  r <- scan_once io (S (S (List.length s))) (skip_space s) ;;
  match skip_space (snd r) with [] => Ok (fst r) | _ => Err ValueError end.
