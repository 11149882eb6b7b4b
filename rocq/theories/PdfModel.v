(* Model of hun_law/extractors/pdf.py without the cache: characters from pdfminer to lines. *)
From Coq Require Import Floats.SpecFloat.
From Verif Require Import PyBase LineModel.
Local Open Scope Z_scope.

(** * Python *)

(* sorted() of floats, none of which is nan *)
Fixpoint f_insert (x : pyfloat) (l : list pyfloat) : list pyfloat :=
  match l with
  | [] => [x]
  | y :: t => if f_ltb x y then x :: l else y :: f_insert x t
  end.
Definition f_sort (l : list pyfloat) : list pyfloat := fold_left (fun a x => f_insert x a) l [].

(* dict with floats as keys, none of which is nan: the items in the order of insertion *)
Definition fdict (A : Type) := list (pyfloat * A).
Fixpoint fd_get {A} (k : pyfloat) (d : fdict A) : option A :=
  match d with
  | [] => None
  | (k', v) :: t => if f_eqb k k' then Some v else fd_get k t
  end.
(* d[k] *)
Definition fd_item {A} (k : pyfloat) (d : fdict A) : res A := match fd_get k d with Some v => Ok v | None => Err KeyError end.
(* d[k] = v *)
Fixpoint fd_set {A} (k : pyfloat) (v : A) (d : fdict A) : fdict A :=
  match d with
  | [] => [(k, v)]
  | (k', v') :: t => if f_eqb k k' then (k', v) :: t else (k', v') :: fd_set k v t
  end.
(* del d[k], where k is in d *)
Definition fd_del {A} (k : pyfloat) (d : fdict A) : fdict A := filter (fun p => negb (f_eqb k (fst p))) d.
(* d.update(e) *)
Definition fd_update {A} (d e : fdict A) : fdict A := fold_left (fun d p => fd_set (fst p) (snd p) d) e d.

(* round(x, 3): to the nearest multiple of 1/1000, ties to even, then to the nearest float *)
Definition round3 (x : pyfloat) : pyfloat :=
  match x with
  | S754_finite s m (Zneg k) =>
      let den := Z.pow_pos 2 k in
      let q := (1000 * Zpos m) / den in
      let r := (1000 * Zpos m) mod den in
      let n := if (2 * r <? den) || ((2 * r =? den) && Z.even q) then q else q + 1 in
      match n with
      | Zpos p => SFdiv prec64 emax64 (S754_finite s p 0) (S754_finite false 1000 0)
      | _ => S754_zero s
      end
  | _ => x
  end.

(* unicodedata.category(c) in ('Co', 'Cf'), generated from CPython 3.11's unicodedata (Unicode 14) *)
Definition co_cf_ranges : list (N * N) := (
  [(173, 173); (1536, 1541); (1564, 1564); (1757, 1757); (1807, 1807); (2192, 2193); (2274, 2274); (6158, 6158); (8203, 8207);
   (8234, 8238); (8288, 8292); (8294, 8303); (57344, 63743); (65279, 65279); (65529, 65531); (69821, 69821); (69837, 69837);
   (78896, 78904); (113824, 113827); (119155, 119162); (917505, 917505); (917536, 917631); (983040, 1048573); (1048576, 1114109)])%N.
(* bytes([i]).decode('latin2') for i from 160; below, it is chr(i) *)
Definition latin2_upper : list N := (
  [160; 260; 728; 321; 164; 317; 346; 167; 168; 352; 350; 356; 377; 173; 381; 379; 176; 261; 731; 322; 180; 318; 347; 711; 184; 353;
   351; 357; 378; 733; 382; 380; 340; 193; 194; 258; 196; 313; 262; 199; 268; 201; 280; 203; 282; 205; 206; 270; 272; 323; 327; 211;
   212; 336; 214; 215; 344; 366; 218; 368; 220; 221; 354; 223; 341; 225; 226; 259; 228; 314; 263; 231; 269; 233; 281; 235; 283; 237;
   238; 271; 273; 324; 328; 243; 244; 337; 246; 247; 345; 367; 250; 369; 252; 253; 355; 729])%N.

(* utils.py:362-365 *)
Definition chr_latin2 (num : Z) : res pystr :=
  if (255 <? num) || (num <? 0) then Err ValueError
  else Ok [if num <? 160 then Z.to_N num else nth (Z.to_nat (num - 160)) latin2_upper 0%N].

(** * Characters *)

(* pdf.py:37-44 *)
Record textbox := mk_tb { tb_x : pyfloat; tb_y : pyfloat; tb_width : pyfloat; tb_space : pyfloat; tb_content : pystr; tb_bold : bool }.

(* What is used of pdfminer's PDFFont: [None] where to_unichr raises PDFUnicodeNotDefined *)
Record font := mk_font { fn_name : pystr; fn_to_unichr : Z -> option pystr; fn_width : Z -> pyfloat }.

(* pdf.py:70-74; that the result is stored in the font makes no difference *)
Definition is_font_bold (f : font) : bool := contains_sub (u8 "bold") (fn_name f) || contains_sub (u8 "Bold") (fn_name f).

(* pdf.py:76-104 *)
Definition cid_to_string (f : font) (cid : Z) : res pystr :=
  let text := match fn_to_unichr f cid with Some t => t | None => u8 "[X]" end in
  text <- (if cid <? 256 then
             l <- chr_latin2 cid ;;
             if negb (str_eqb l text) && str_eqb (str_upper l) (str_upper text) then Ok l else Ok text
           else Ok text) ;;
  let text := replace_str (u8 "Õ") (u8 "Ő") text in
  let text := replace_str (u8 "õ") (u8 "ő") text in
  let text := replace_str (u8 "Û") (u8 "Ű") text in
  Ok (replace_str (u8 "û") (u8 "ű") text).

(* one call of render_char; ch_a, ch_x, ch_y are elements 0, 4, 5 of the matrix *)
Record char := mk_char { ch_a : pyfloat; ch_x : pyfloat; ch_y : pyfloat; ch_font : font; ch_size : pyfloat; ch_scaling : pyfloat; ch_cid : Z }.

(* pdf.py:106-139: the box that is added to the page, if any *)
Definition render_char (c : char) : res (option textbox) :=
  text <- cid_to_string (ch_font c) (ch_cid c) ;;
  let textwidth := f_mul (f_mul (fn_width (ch_font c) (ch_cid c)) (ch_size c)) (ch_scaling c) in
  match text with
  | [] => Err IndexError
  | first :: _ =>
      if in_ranges co_cf_ranges first then Ok None
      else if negb (str_isspace text) then
        let w := fn_width (ch_font c) 32 in
        let w := if f_eqb w (f_of_Z 1) || f_eqb w f_zero then f_dyadic 1 (-2) else w in
        Ok (Some (mk_tb (ch_x c) (round3 (ch_y c)) (f_mul textwidth (ch_a c)) (f_mul (f_mul (f_mul w (ch_size c)) (ch_scaling c)) (ch_a c))
                        text (is_font_bold (ch_font c))))
      else Ok None
  end.

(* pdf.py:57-68, 160-166: what pdfminer calls while it goes through the pages.  Characters before
   the first page go to a page that is not in the list. *)
Inductive event := BeginPage | RenderChar (c : char).
Fixpoint run_device (pages : list (list textbox)) (current : list textbox) (started : bool) (es : list event) : res (list (list textbox)) :=
  match es with
  | [] => Ok (if started then pages ++ [current] else pages)
  | BeginPage :: t => run_device (if started then pages ++ [current] else pages) [] true t
  | RenderChar c :: t => b <- render_char c ;; run_device pages (current ++ match b with Some b => [b] | None => [] end) started t
  end.
Definition extract_textboxes (es : list event) : res (list (list textbox)) := run_device [] [] false es.

(** * Lines *)

(* pdf.py:170-185 *)
Fixpoint collect (d : fdict (fdict textbox)) (tbs : list textbox) : res (fdict (fdict textbox)) :=
  match tbs with
  | [] => Ok d
  | tb :: t =>
      let d := match fd_get (tb_y tb) d with None => fd_set (tb_y tb) [] d | Some _ => d end in
      row <- fd_item (tb_y tb) d ;;
      match fd_get (tb_x tb) row with
      | Some there => if negb (str_eqb (tb_content tb) (tb_content there)) then Err ValueError else collect d t
      | None => collect (fd_set (tb_y tb) (fd_set (tb_x tb) tb row) d) t
      end
  end.

(* 0.2 as a float *)
Definition f_02 : pyfloat := f_dyadic 7205759403792794 (-55).

(* pdf.py:187-203 *)
Fixpoint consolidate (last : option pyfloat) (ys : list pyfloat) (d : fdict (fdict textbox)) : res (fdict (fdict textbox)) :=
  match ys with
  | [] => Ok d
  | y :: t =>
      match last with
      | Some l =>
          if f_ltb (SFabs (f_sub y l)) f_02 then
            a <- fd_item l d ;; b <- fd_item y d ;;
            consolidate last t (fd_del y (fd_set l (fd_update a b) d))
          else consolidate (Some y) t d
      | None => consolidate (Some y) t d
      end
  end.

(* pdf.py:168-205 *)
Definition sort_textboxes_into_dicts (tbs : list textbox) : res (fdict (fdict textbox)) :=
  d <- collect [] tbs ;; consolidate None (f_sort (map fst d)) d.

(* pdf.py:213-222: the loop.  [threshold]: threshold_to_space. *)
Fixpoint line_loop (d : fdict textbox) (rightmost : pyfloat) (xs : list pyfloat) (parts : list part) (threshold : option pyfloat) (prev_x margin : pyfloat) : res line :=
  match xs with
  | [] => Ok (mk_line parts margin)
  | x :: t =>
      box <- fd_item x d ;;
      ' (parts, prev_x) <-
        match threshold with
        | Some th =>
            if f_ltb th x || str_eqb (tb_content box) (u8 "„") then
              match rev parts with
              | [] => Ok (parts, prev_x)
              | p :: _ =>
                  c <- last_chr (p_content p) ;;
                  if negb (N.eqb c 32) then Ok (parts ++ [mk_part (f_sub th prev_x) (u8 " ") false], th) else Ok (parts, prev_x)
              end
            else Ok (parts, prev_x)
        | None => Ok (parts, prev_x)
        end ;;
      line_loop d rightmost t (parts ++ [mk_part (f_sub (tb_x box) prev_x) (tb_content box) (tb_bold box)])
        (Some (f_add (f_add x (tb_width box)) (f_mul (tb_space box) (f_dyadic 1 (-1))))) (tb_x box)
        (f_sub rightmost (f_sub (tb_x box) (tb_width box)))
  end.
(* pdf.py:208-224 *)
Definition convert_textbox_dict_to_line (d : fdict textbox) (rightmost : pyfloat) : res line :=
  line_loop d rightmost (f_sort (map fst d)) [] None f_zero f_zero.

(* max() of floats *)
Definition f_max (l : list pyfloat) : res pyfloat :=
  match l with [] => Err ValueError | x :: t => Ok (fold_left (fun m y => if f_ltb m y then y else m) t x) end.

(* pdf.py:232-237 *)
Fixpoint page_loop (d : fdict (fdict textbox)) (rightmost : pyfloat) (ys : list pyfloat) (prev_y : pyfloat) : res (list line) :=
  match ys with
  | [] => Ok []
  | y :: t =>
      row <- fd_item y d ;;
      l <- convert_textbox_dict_to_line row rightmost ;;
      ls <- page_loop d rightmost t y ;;
      Ok ((if negb (f_eqb prev_y f_zero) && f_ltb (f_of_Z 18) (f_sub prev_y y) then [EMPTY_LINE] else []) ++ l :: ls)
  end.
(* pdf.py:227-238; sorted(reverse=True) of different keys is the reverse *)
Definition extract_single_page (tbs : list textbox) : res (list line) :=
  d <- sort_textboxes_into_dicts tbs ;;
  rightmost <- f_max (map (fun tb => f_add (tb_width tb) (tb_x tb)) tbs) ;;
  page_loop d rightmost (rev (f_sort (map fst d))) f_zero.

(* pdf.py:241-245 *)
Definition extract_lines (pages : list (list textbox)) : res (list (list line)) := mapM extract_single_page pages.
