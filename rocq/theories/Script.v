(* util/get_delta_t: the script that generates the Delta-T table of solartime.py from the USNO file
   deltat.data.  Lines 45-84, from the parsed entries on; the values may be of any type V.  Reading the
   lines and the text written are in ScriptText.v, except opening the file or URL (26-31). *)
From Verif Require Import Py.

Record entry (V : Type) := mkentry { e_year : Z; e_month : Z; e_day : Z; e_dt : V }.
Arguments mkentry {V}. Arguments e_year {V}. Arguments e_month {V}. Arguments e_day {V}. Arguments e_dt {V}.

(* what is written: the three assignments (64-67) and the opening bracket; "[ # year" (71);
   "value, # month" (82); "]," (54); "] # delta_t" (56) *)
Inductive out (V : Type) :=
| OHeader (base_year base_month : Z)
| OOpen (year : Z)
| OItem (dt : V) (month : Z)
| OClose
| OEnd.
Arguments OHeader {V}. Arguments OOpen {V}. Arguments OItem {V}. Arguments OClose {V}. Arguments OEnd {V}.

Section S.
Context {V : Type}.

(* output written before the run ends or stops at an exception *)
Definition run_result := (list (out V) * option exn)%type.
Definition emit (l : list (out V)) (r : run_result) : run_result := (l ++ fst r, snd r)%list.
Definition assert_ (b : bool) (r : run_result) : run_result := if b then r else ([], Some AssertionError).

(* lines 46-84: the loop; last_year and last_month are None as in the script; fin is the exception the
   generator parse_data raises after the entries, None if it just ends *)
Fixpoint run_on (fin : option exn) (entries : list (entry V)) (last_year last_month : option Z) : run_result :=
  match entries with
  | [] => match fin, last_year with
          | Some e, _ => ([], Some e)                                            (* 47 *)
          | None, Some _ => ([OClose; OEnd], None)                               (* 53-60 *)
          | None, None => ([], None)
          end
  | e :: rest =>
      assert_ (e_day e =? 1) (                                                   (* 50 *)
      let item lm :=
        assert_ (match lm with None => true | Some m => e_month e =? m + 1 end)  (* 80-81 *)
          (emit [OItem (e_dt e) (e_month e)] (run_on fin rest (Some (e_year e)) (Some (e_month e)))) in
      match last_year with
      | None => emit [OHeader (e_year e) (e_month e); OOpen (e_year e)] (item None)   (* 63-67, 71, 75 *)
      | Some y =>
          if y =? e_year e then item last_month
          else emit [OClose]                                                     (* 53-54 *)
                 (assert_ (y + 1 =? e_year e)                                    (* 62 *)
                 (assert_ (match last_month with Some m => m =? 12 | None => false end)  (* 69 *)
                 (emit [OOpen (e_year e)] (item (Some 0)))))                     (* 71, 73 *)
      end)
  end.

Definition run : list (entry V) -> option Z -> option Z -> run_result := run_on None.
Definition script (entries : list (entry V)) : run_result := run entries None None.
End S.
