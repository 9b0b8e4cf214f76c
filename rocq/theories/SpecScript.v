(* What the output of util/get_delta_t means as a Python table, and what a proper input is. *)
From Verif Require Import Py Script.

Section S.
Context {V : Type}.

(* the written text read back as Python: base year, base month and the rows *)
Inductive rows_text : list (out V) -> list (list V) -> Prop :=
| rt_end : rows_text [OEnd] []
| rt_row y items row rest rows : row_text items row -> rows_text rest rows ->
    rows_text (OOpen y :: items ++ OClose :: rest) (row :: rows)
with row_text : list (out V) -> list V -> Prop :=
| row_nil : row_text [] []
| row_item dt m items row : row_text items row -> row_text (OItem dt m :: items) (dt :: row).
Definition table_text (o : list (out V)) (base_year base_month : Z) (rows : list (list V)) : Prop :=
  exists rest, o = OHeader base_year base_month :: rest /\ rows_text rest rows.

(* first-of-month entries, one per calendar month, without gaps *)
Definition month_index (e : entry V) : Z := 12 * e_year e + (e_month e - 1).
Fixpoint consecutive (es : list (entry V)) : Prop :=
  match es with
  | e :: ((e' :: _) as rest) => month_index e' = month_index e + 1 /\ consecutive rest
  | _ => True
  end.
Definition months_valid (es : list (entry V)) : Prop := Forall (fun e => 1 <= e_month e <= 12) es.
Definition monthly (es : list (entry V)) : Prop :=
  es <> [] /\ months_valid es /\ Forall (fun e => e_day e = 1) es /\ consecutive es.
End S.
