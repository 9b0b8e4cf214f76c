(* How Python reads the text of a module made of assignments of numbers and lists: tokens (Language
   Reference 2: comments, line joining, decimal literals) and expressions; and what a line of the input
   file is. *)
From Coq Require Import String Ascii ZArith List.
From Flocq Require Import IEEE754.BinarySingleNaN.
From Verif Require Import Py Num B64 Script ScriptText.
Import ListNotations.
Local Open Scope string_scope.
Local Open Scope char_scope.
Local Open Scope list_scope.
Local Open Scope Z_scope.

Inductive tok := TName (x : text) | TInt (z : Z) | TFloat (q : Q) | TEq | TOpen | TClose | TComma | TMinus | TEnd.
(* a word being read, a comment, or a backslash; depth of brackets; whether the line has begun *)
Inductive mode := MNone | MWord (w : text) | MComment | MJoin.
Record state := mkstate { s_mode : mode; s_depth : nat; s_begun : bool }.

Definition is_word_char (c : ascii) : bool :=
  is_digit c || ((65 <=? code c) && (code c <=? 90)) || ((97 <=? code c) && (code c <=? 122)) || Ascii.eqb c "_" || Ascii.eqb c ".".
Definition all_digits (w : text) : bool := forallb is_digit w.
(* a word: an integer without leading zeros, digits.digits, or a name *)
Definition word_tok (w : text) : option tok :=
  match w with
  | [] => None
  | c :: _ =>
      if is_digit c then
        let (a, r) := span_digits w in
        match r with
        | [] => if Ascii.eqb c "0" && (1 <? zlength w) then None else Some (TInt (digits_value w))
        | d :: b => if Ascii.eqb d "." && all_digits b && (0 <? zlength b)
                    then Some (TFloat (Qmake (digits_value (a ++ b)) (Z.to_pos (10 ^ zlength b)))) else None
        end
      else if existsb (Ascii.eqb ".") w then None else Some (TName w)
  end.
(* the end of a physical line *)
Definition end_line (s : state) : list tok * state :=
  match s_depth s with
  | O => ((if s_begun s then [TEnd] else []), mkstate MNone 0 false)
  | S _ => ([], mkstate MNone (s_depth s) true)
  end.
(* one character outside words and comments *)
Definition fresh (s : state) (c : ascii) : option (list tok * state) :=
  let go m d := mkstate m d true in
  if Ascii.eqb c nl then Some (end_line s)
  else if Ascii.eqb c "#" then Some ([], mkstate MComment (s_depth s) (s_begun s))
  else if Ascii.eqb c "\" then Some ([], go MJoin (s_depth s))
  else if Ascii.eqb c " " then if s_begun s then Some ([], mkstate MNone (s_depth s) true) else None   (* indentation *)
  else if Ascii.eqb c "[" then Some ([TOpen], go MNone (S (s_depth s)))
  else if Ascii.eqb c "]" then match s_depth s with S d => Some ([TClose], go MNone d) | O => None end
  else if Ascii.eqb c "," then Some ([TComma], go MNone (s_depth s))
  else if Ascii.eqb c "=" then Some ([TEq], go MNone (s_depth s))
  else if Ascii.eqb c "-" then Some ([TMinus], go MNone (s_depth s))
  else if is_word_char c then Some ([], go (MWord [c]) (s_depth s))
  else None.
Definition step (s : state) (c : ascii) : option (list tok * state) :=
  match s_mode s with
  | MNone => fresh s c
  | MComment => if Ascii.eqb c nl then Some (end_line s) else Some ([], s)
  | MJoin => if Ascii.eqb c nl then Some ([], mkstate MNone (s_depth s) true) else None
  | MWord w => if is_word_char c then Some ([], mkstate (MWord (w ++ [c])) (s_depth s) true)
               else match word_tok w, fresh s c with Some k, Some (ks, s') => Some (k :: ks, s') | _, _ => None end
  end.
Fixpoint lex (s : state) (l : text) : option (list tok * state) :=
  match l with
  | [] => Some ([], s)
  | c :: l => match step s c with
              | Some (ks, s') => match lex s' l with Some (ks', s'') => Some (ks ++ ks', s'')%list | None => None end
              | None => None
              end
  end.
Definition start : state := mkstate MNone 0 false.
(* the whole text, ending in a newline *)
Definition tokens (l : text) : option (list tok) :=
  match lex start l with Some (ks, mkstate MNone O false) => Some ks | _ => None end.

Inductive value := VInt (z : Z) | VFloat (x : f64) | VList (l : list value).
Inductive expr : list tok -> value -> Prop :=
| ex_int z : expr [TInt z] (VInt z)
| ex_float q : expr [TFloat q] (VFloat (flit q))
| ex_neg_int z : expr [TMinus; TInt z] (VInt (- z))
| ex_neg_float q : expr [TMinus; TFloat q] (VFloat (Bopp (flit q)))
| ex_list ts vs : elements ts vs -> expr (TOpen :: ts ++ [TClose]) (VList vs)
with elements : list tok -> list value -> Prop :=
| el_none : elements [] []
| el_last ts v : expr ts v -> elements ts [v]
| el_cons ts v ts' vs : expr ts v -> elements ts' vs -> elements (ts ++ TComma :: ts') (v :: vs).
Inductive assignments : list tok -> list (text * value) -> Prop :=
| as_end : assignments [] []
| as_one x ts v ts' env : expr ts v -> assignments ts' env -> assignments (TName x :: TEq :: ts ++ TEnd :: ts') ((x, v) :: env).
(* running the text as a module binds these names, in this order *)
Definition module_binds (l : text) (env : list (text * value)) : Prop := exists ks, tokens l = Some ks /\ assignments ks env.

(* the three variables of solartime.py *)
Definition table_env (base_year base_month : Z) (rows : list (list f64)) : list (text * value) :=
  [(txt "delta_t_base_year", VInt base_year); (txt "delta_t_base_month", VInt base_month);
   (txt "delta_t", VList (map (fun row => VList (map VFloat row)) rows))].

(* The input: lines of blank characters, or of year, month, day and value with blanks between.  The
   value has at most four decimals; the entry holds the double nearest to it. *)
Definition blank (s : text) : Prop := Forall (fun c => In (code c) [9; 11; 12; 13; 28; 29; 30; 31; 32]) s.
Definition digit (c : ascii) (d : Z) : Prop := 0 <= d <= 9 /\ code c = 48 + d.
Inductive natural : text -> Z -> Prop :=
| nat_one c d : digit c d -> natural [c] d
| nat_more w z c d : natural w z -> digit c d -> natural (w ++ [c]) (10 * z + d).
Inductive fixed : text -> f64 -> Prop :=
| fx_whole w m : natural w m -> m <= 10 ^ 11 -> fixed w (flit (inject_Z m))
| fx_point a b m : natural (a ++ b) m -> (List.length b <= 4)%nat -> m <= 10 ^ 11 * 10 ^ zlength b ->
    fixed (a ++ "." :: b) (flit (Qmake m (Z.to_pos (10 ^ zlength b)))).
Inductive signed : text -> f64 -> Prop :=
| sg_plain w x : fixed w x -> signed w x
| sg_minus w x : fixed w x -> signed ("-" :: w) (Bopp x).
Inductive data_line : text -> list (entry f64) -> Prop :=
| dl_blank s : blank s -> data_line s []
| dl_entry s0 s1 s2 s3 s4 wy wm wd wx y m d x :
    blank s0 -> blank s1 -> blank s2 -> blank s3 -> blank s4 -> s1 <> [] -> s2 <> [] -> s3 <> [] ->
    natural wy y -> natural wm m -> natural wd d -> signed wx x ->
    data_line (s0 ++ wy ++ s1 ++ wm ++ s2 ++ wd ++ s3 ++ wx ++ s4) [mkentry y m d x].
Inductive data_file : text -> list (entry f64) -> Prop :=
| df_last l es : data_line l es -> data_file l es
| df_more l es s es' : data_line l es -> data_file s es' -> data_file (l ++ nl :: s) (es ++ es').
(* a line of one, two or three words: characters other than white space *)
Definition word (w : text) : Prop := w <> [] /\ Forall (fun c => ~ In (code c) [9; 10; 11; 12; 13; 28; 29; 30; 31; 32]) w.
Inductive short_line : text -> Prop :=
| sl_one s0 s1 w1 : blank s0 -> blank s1 -> word w1 -> short_line (s0 ++ w1 ++ s1)
| sl_two s0 s1 s2 w1 w2 : blank s0 -> blank s1 -> blank s2 -> s1 <> [] -> word w1 -> word w2 -> short_line (s0 ++ w1 ++ s1 ++ w2 ++ s2)
| sl_three s0 s1 s2 s3 w1 w2 w3 : blank s0 -> blank s1 -> blank s2 -> blank s3 -> s1 <> [] -> s2 <> [] -> word w1 -> word w2 -> word w3 ->
    short_line (s0 ++ w1 ++ s1 ++ w2 ++ s2 ++ w3 ++ s3).
