(* util/get_delta_t, lines 33-41 and the text written by 45-84.  Text is a list of ASCII characters
   (the file is ASCII, line 30); float is binary64.  Not modelled: opening the file or URL (26-31),
   non-ASCII input, and the limit of 4300 digits that recent versions of int() have. *)
From Coq Require Import String Ascii.
From Flocq Require Import IEEE754.BinarySingleNaN.
From Verif Require Import Py Num B64 Script.
Import ListNotations.
Local Open Scope string_scope.
Local Open Scope char_scope.
Local Open Scope list_scope.
Local Open Scope Z_scope.

Definition text := list ascii.
Definition txt (s : string) : text := list_ascii_of_string s.
Definition code (c : ascii) : Z := Z.of_N (N_of_ascii c).
Definition nl : ascii := "010".

(* str.isspace and \s, for ASCII characters *)
Definition is_space (c : ascii) : bool := ((9 <=? code c) && (code c <=? 13)) || ((28 <=? code c) && (code c <=? 32)).
Definition is_digit (c : ascii) : bool := (48 <=? code c) && (code c <=? 57).
Definition digit_value (c : ascii) : Z := code c - 48.

(* data.split("\n") *)
Fixpoint split_nl (s : text) : list text :=
  match s with
  | [] => [[]]
  | c :: s => if Ascii.eqb c nl then [] :: split_nl s
              else match split_nl s with l :: ls => (c :: l) :: ls | [] => [[c]] end
  end.
(* str.strip *)
Fixpoint lstrip (s : text) : text :=
  match s with c :: s' => if is_space c then lstrip s' else s | [] => [] end.
Definition strip (s : text) : text := rev (lstrip (rev (lstrip s))).
(* re.split(r"\s+", s, k) *)
Fixpoint span_word (s : text) : text * text :=
  match s with
  | [] => ([], [])
  | c :: s' => if is_space c then ([], s) else let (w, r) := span_word s' in (c :: w, r)
  end.
Fixpoint re_split (k : nat) (s : text) : list text :=
  match k with
  | O => [s]
  | S k => match span_word s with
           | (w, []) => [w]
           | (w, r) => w :: re_split k (lstrip r)
           end
  end.

(* int(s) in base 10, for s without surrounding space: sign, digits, single underscores between digits *)
Fixpoint digits_us (after_digit : bool) (acc : Z) (s : text) : option Z :=
  match s with
  | [] => if after_digit then Some acc else None
  | c :: s => if is_digit c then digits_us true (10 * acc + digit_value c) s
              else if Ascii.eqb c "_" && after_digit then digits_us false acc s
              else None
  end.
Definition with_sign {A} (f : bool -> text -> A) (s : text) : A :=
  match s with
  | c :: s' => if Ascii.eqb c "-" then f true s' else if Ascii.eqb c "+" then f false s' else f false s
  | [] => f false s
  end.
Definition value_error {A} (o : option A) : res A := match o with Some a => Ok a | None => Err ValueError end.
Definition py_int (s : text) : res Z :=
  value_error (with_sign (fun neg s => option_map (fun z => if neg then - z else z) (digits_us false 0 s)) s).

(* float(s), for s without surrounding space *)
Fixpoint remove_us (prev : bool) (s : text) : option text :=          (* underscores only between digits *)
  match s with
  | [] => Some []
  | c :: s' => if Ascii.eqb c "_" then
                 match s' with
                 | d :: _ => if prev && is_digit d then remove_us false s' else None
                 | [] => None
                 end
               else option_map (cons c) (remove_us (is_digit c) s')
  end.
Fixpoint span_digits (s : text) : text * text :=
  match s with
  | [] => ([], [])
  | c :: s' => if is_digit c then let (w, r) := span_digits s' in (c :: w, r) else ([], s)
  end.
Definition digits_value (s : text) : Z := fold_left (fun a c => 10 * a + digit_value c) s 0.
Definition zlength (s : text) : Z := Z.of_nat (List.length s).
(* m * 10^e, rounded *)
Definition decimal (neg : bool) (m e : Z) : f64 :=
  let x := flit (if e <? 0 then Qmake m (Z.to_pos (10 ^ (- e))) else inject_Z (m * 10 ^ e)) in
  if neg then Bopp x else x.
Definition lower (c : ascii) : ascii :=
  if (65 <=? code c) && (code c <=? 90) then ascii_of_N (Z.to_N (code c + 32)) else c.
Definition text_eqb (a b : text) : bool := if list_eq_dec ascii_dec a b then true else false.
Definition py_float_unsigned (neg : bool) (s : text) : option f64 :=
  let w := map lower s in
  if text_eqb w (txt "inf") || text_eqb w (txt "infinity") then Some (B754_infinity neg)
  else if text_eqb w (txt "nan") then Some B754_nan
  else
    let (ip, r) := span_digits s in
    let (fp, r) := match r with c :: r' => if Ascii.eqb c "." then span_digits r' else ([], r) | [] => ([], r) end in
    if zlength (ip ++ fp) =? 0 then None
    else
      let fin ex := Some (decimal neg (digits_value (ip ++ fp)) (ex - zlength fp)) in
      match r with
      | [] => fin 0
      | c :: r' => if Ascii.eqb c "e" || Ascii.eqb c "E" then
                     with_sign (fun eneg r' =>
                       let (ep, r'') := span_digits r' in
                       if (zlength ep =? 0) || negb (zlength r'' =? 0) then None
                       else fin (if eneg then - digits_value ep else digits_value ep)) r'
                   else None
      end.
Definition py_float (s : text) : res f64 :=
  value_error (match remove_us false s with Some s => with_sign py_float_unsigned s | None => None end).

(* lines 35-41: one line; None if it is blank *)
Definition parse_line (line : text) : res (option (entry f64)) :=
  let line := strip line in
  if zlength line =? 0 then Ok None
  else match re_split 3 line with
       | [y; m; d; x] => y <- py_int y ;; m <- py_int m ;; d <- py_int d ;; x <- py_float x ;; Ok (Some (mkentry y m d x))
       | _ => Err ValueError
       end.
(* the entries yielded, and the exception that ends the generator, if any *)
Fixpoint parse_lines (ls : list text) : list (entry f64) * option exn :=
  match ls with
  | [] => ([], None)
  | l :: ls => match parse_line l with
               | Ok None => parse_lines ls
               | Ok (Some e) => let (es, fin) := parse_lines ls in (e :: es, fin)
               | Err ex => ([], Some ex)
               end
  end.
Definition parse_data (data : text) : list (entry f64) * option exn := parse_lines (split_nl data).

(* "%d" *)
Definition digit_char (d : Z) : ascii := ascii_of_N (Z.to_N (d + 48)).
Fixpoint show_digits (fuel : nat) (n : Z) : text :=
  match fuel with
  | O => []
  | S fuel => if n <? 10 then [digit_char n] else show_digits fuel (n / 10) ++ [digit_char (n mod 10)]
  end.
Definition show_nat (n : Z) : text := show_digits (S (Z.to_nat (Z.log2 n))) n.
Definition show_int (n : Z) : text := if n <? 0 then "-"%char :: show_nat (- n) else show_nat n.
(* "%.4f": the exact value rounded to four decimals, ties to even *)
Definition div_half_even (a b : Z) : Z :=
  let q := a / b in
  match 2 * (a mod b) ?= b with Lt => q | Gt => q + 1 | Eq => if Z.even q then q else q + 1 end.
Definition ten_thousandths (m : positive) (e : Z) : Z :=
  if 0 <=? e then Zpos m * 2 ^ e * 10000 else div_half_even (Zpos m * 10000) (2 ^ (- e)).
Definition show_frac (n : Z) : text :=
  show_nat (n / 10000) ++ "."%char ::
  [digit_char (n / 1000 mod 10); digit_char (n / 100 mod 10); digit_char (n / 10 mod 10); digit_char (n mod 10)].
Definition show_4f (x : f64) : text :=
  let sg (s : bool) (w : text) := if s then "-"%char :: w else w in
  match x with
  | B754_nan => txt "nan"
  | B754_infinity s => sg s (txt "inf")
  | B754_zero s => sg s (show_frac 0)
  | B754_finite s m e _ => sg s (show_frac (ten_thousandths m e))
  end.

Definition line (l : list text) : text := List.concat l ++ [nl].
Definition render (o : out f64) : text :=
  match o with
  | OHeader y m =>                                                            (* 64-67 *)
      line [txt "# table generated by util/get_delta_t script"] ++
      line [txt "delta_t_base_year = "; show_int y] ++ line [txt "delta_t_base_month = "; show_int m] ++
      line [txt "delta_t = \"] ++ line [txt "  ["]
  | OOpen y => line [txt "        [ # "; show_int y]                         (* 71 *)
  | OItem x m => line [txt "            "; show_4f x; txt ", # "; show_int m]   (* 82 *)
  | OClose => line [txt "        ],"]                                        (* 54 *)
  | OEnd => line [txt "    ] # delta_t"]                                     (* 56 *)
  end.

(* the whole script on the contents of the file: what is printed, and the exception that ends it *)
Definition script_text (data : text) : text * option exn :=
  let (es, fin) := parse_data data in
  let (o, ex) := run_on fin es None None in
  (List.concat (map render o), ex).
