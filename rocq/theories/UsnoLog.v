(* test/query_usno.py: the text of the log file, as written (170-173) and as read (157-168).  Text is
   ASCII; files are modelled by their contents. *)
From Coq Require Import String Ascii.
From Verif Require Import Py Cal Num B64 ScriptText.
Import ListNotations.
Local Open Scope string_scope.
Local Open Scope char_scope.
Local Open Scope list_scope.
Local Open Scope Z_scope.

(* "%02d", "%04d" and "%06d" of a number with at most that many digits *)
Definition pad2 (n : Z) : text := [digit_char (n / 10); digit_char (n mod 10)].
Definition pad4 (n : Z) : text := pad2 (n / 100) ++ pad2 (n mod 100).
Definition pad6 (n : Z) : text := pad2 (n / 10000) ++ pad4 (n mod 10000).

(* str(d), CPython's datetime_isoformat and format_utcoffset *)
Definition offset_text (o : option Z) : text :=
  match o with
  | None => []
  | Some o =>
      let a := Z.abs o in
      let s := a / 1000000 in
      (if o <? 0 then "-" else "+") :: pad2 (s / 3600) ++ ":" :: pad2 (s / 60 mod 60) ++
      (if (s mod 60 =? 0) && (a mod 1000000 =? 0) then []
       else ":" :: pad2 (s mod 60) ++ (if a mod 1000000 =? 0 then [] else "." :: pad6 (a mod 1000000)))
  end.
Definition str_datetime (d : datetime) : res text :=
  off <- utcoffset d ;;
  let f := timetuple d in
  Ok (pad4 (f_year f) ++ "-" :: pad2 (f_mon f) ++ "-" :: pad2 (f_day f) ++ " " ::
      pad2 (f_hour f) ++ ":" :: pad2 (f_min f) ++ ":" :: pad2 (f_sec f) ++
      (if f_us f =? 0 then [] else "." :: pad6 (f_us f)) ++ offset_text off).

(* lines 170-173: a datum as the '%s' of its fields; the numbers are given by their texts *)
Record datum_text := mkdatum { w_when : datetime; w_lat : text; w_lon : text; w_elevation : text; w_azimuth : text; w_altitude : text }.
Definition log_line (d : datum_text) : res text :=
  s <- str_datetime (w_when d) ;;
  Ok (s ++ " " :: w_lat d ++ " " :: w_lon d ++ " " :: w_elevation d ++ " " :: w_azimuth d ++ " " :: w_altitude d ++ [nl]).

(* log.readlines(): the newlines are kept *)
Fixpoint readlines (s : text) : list text :=
  match s with
  | [] => []
  | c :: s => if Ascii.eqb c nl then [c] :: readlines s
              else match readlines s with l :: ls => (c :: l) :: ls | [] => [[c]] end
  end.
(* line.split(' ') *)
Fixpoint split_on (x : ascii) (s : text) : list text :=
  match s with
  | [] => [[]]
  | c :: s => if Ascii.eqb c x then [] :: split_on x s
              else match split_on x s with l :: ls => (c :: l) :: ls | [] => [[c]] end
  end.

(* time.strptime(s, '%Y-%m-%d %H:%M:%S') (Lib/_strptime.py): the format is turned into a regular
   expression, matched at the start of s.  A parser yields its matches in the order in which re tries
   them; the first complete match counts. *)
Definition parser (A : Type) := text -> list (A * text).
Definition pbind {A B} (p : parser A) (q : A -> parser B) : parser B := fun s => flat_map (fun ar => q (fst ar) (snd ar)) (p s).
Definition pret {A} (a : A) : parser A := fun s => [(a, s)].
Definition palt {A} (p q : parser A) : parser A := fun s => p s ++ q s.
Definition p1 (lo hi : Z) : parser Z := fun s =>                                             (* [lo-hi] *)
  match s with c :: s => if is_digit c && (lo <=? digit_value c) && (digit_value c <=? hi) then [(digit_value c, s)] else [] | [] => [] end.
Definition p2 (a b lo hi : Z) : parser Z := pbind (p1 a b) (fun t => pbind (p1 lo hi) (fun u => pret (10 * t + u))).
Definition pchar (x : ascii) : parser unit := fun s => match s with c :: s => if Ascii.eqb c x then [(tt, s)] else [] | [] => [] end.
Fixpoint pspaces (s : text) : list (unit * text) :=                                         (* \s+, longest first *)
  match s with c :: s' => if is_space c then pspaces s' ++ [(tt, s')] else [] | [] => [] end.
Definition p_year : parser Z := pbind (p2 0 9 0 9) (fun a => pbind (p2 0 9 0 9) (fun b => pret (100 * a + b))).
Definition p_mon : parser Z := palt (p2 1 1 0 2) (palt (p2 0 0 1 9) (p1 1 9)).
Definition p_day : parser Z := palt (p2 3 3 0 1) (palt (p2 1 2 0 9) (palt (p2 0 0 1 9) (palt (p1 1 9) (pbind (pchar " ") (fun _ => p1 1 9))))).
Definition p_hour : parser Z := palt (p2 2 2 0 3) (palt (p2 0 1 0 9) (p1 0 9)).
Definition p_min : parser Z := palt (p2 0 5 0 9) (p1 0 9).
Definition p_sec : parser Z := palt (p2 6 6 0 1) (palt (p2 0 5 0 9) (p1 0 9)).
Definition p_time : parser fields :=
  pbind p_year (fun y => pbind (pchar "-") (fun _ => pbind p_mon (fun mo => pbind (pchar "-") (fun _ => pbind p_day (fun d =>
  pbind pspaces (fun _ =>
  pbind p_hour (fun h => pbind (pchar ":") (fun _ => pbind p_min (fun mi => pbind (pchar ":") (fun _ => pbind p_sec (fun s =>
  pret (mkfields y mo d h mi s 0)))))))))))).
(* line 163: ValueError without a match, with characters left, for a day the month has not (both in
   strptime), and for second 60 or 61 (in datetime) *)
Definition strptime_datetime (s : text) : res Z :=
  match p_time s with
  | (f, []) :: _ => if (1 <=? f_year f) && (f_day f <=? days_in_month (is_leap (f_year f)) (f_mon f)) && (f_sec f <=? 59) then Ok (us_of_fields f) else Err ValueError
  | _ => Err ValueError
  end.

(* lines 38-45 on the values of line 165: latitude and longitude stay texts *)
Record logged := mklogged { l_when : datetime; l_lat : text; l_lon : text; l_elevation : f64; l_azimuth : f64; l_altitude : f64 }.
(* lines 161-165: one line; float() ignores surrounding space *)
Definition read_line (line : text) : res logged :=
  match split_on " " line with
  | a0 :: a1 :: rest =>
      u <- strptime_datetime (a0 ++ " " :: a1) ;;
      match rest with
      | a2 :: a3 :: a4 :: a5 :: a6 :: _ =>
          e <- py_float (strip a4) ;;
          z <- py_float (strip a5) ;;
          h <- py_float (strip a6) ;;
          Ok (mklogged {| dt_local := u; dt_fold := false; dt_tz := Some (fixed_tz 0) |} a2 a3 e z h)
      | _ => Err IndexError
      end
  | _ => Err IndexError
  end.
Fixpoint read_lines (ls : list text) : res (list logged) :=
  match ls with
  | [] => Ok []
  | l :: ls => x <- read_line l ;; xs <- read_lines ls ;; Ok (x :: xs)
  end.
(* lines 157-168 *)
Definition read_log (contents : text) : res (list logged) := read_lines (readlines contents).
