(* Properties C104-C106: util/get_delta_t from the text it reads to the Python text it writes, and the
   text of the table in solartime.py. *)
From Coq Require Import String Ascii ZArith List Reals.
From Flocq Require Import Core IEEE754.BinarySingleNaN.
From Verif Require Import Py Num B64 Script SpecScript SolarTime ScriptText SpecPyText TableText ScriptTextProofs ScriptTextMore TableTextProofs.
Import ListNotations.
Local Open Scope string_scope.
Local Open Scope list_scope.
Local Open Scope Z_scope.

(* ------------------------------------------------------------------------------- C104 *)
(* values with at most four decimals, one line per month: the script ends normally, Python reads what
   it wrote as exactly one table, that table holds the same doubles, and the lookup finds each *)
Theorem C104_text_round_trip : forall data es, data_file data es -> monthly es -> exists o base_year base_month rows,
  script_text data = (o, None) /\ (forall env, module_binds o env <-> env = table_env base_year base_month rows) /\
  List.concat rows = map e_dt es /\ forall e, In e es -> delta_t_lookup base_year base_month rows (e_year e) (e_month e) = Ok (e_dt e).
Proof. exact text_round_trip. Qed.
Print Assumptions C104_text_round_trip.
(* entries that skip, repeat or start mid-month stop it *)
Theorem C104_rejects_gaps : forall data es, data_file data es -> es <> [] -> months_valid es -> ~ monthly es ->
  snd (script_text data) = Some AssertionError.
Proof. exact text_rejects. Qed.
Print Assumptions C104_rejects_gaps.
(* so does a line of one to three words, after any proper beginning *)
Theorem C104_rejects_short_lines : forall data es l rest, data_file data es -> es = [] \/ monthly es -> short_line l ->
  rest = [] \/ (exists r, rest = nl :: r) -> snd (script_text (data ++ nl :: l ++ rest)) = Some ValueError.
Proof. exact text_short_line. Qed.
Print Assumptions C104_rejects_short_lines.
Example C104_case : data_file sample_data sample_entries /\ monthly sample_entries /\
  script_text sample_data = (sample_output, None) /\ short_line (txt " 1974 2  1").
Proof. exact text_samples. Qed.

(* ------------------------------------------------------------------------------- C105 *)
(* FALSE for every accepted input: the value nan is read and written, and Python cannot read the result *)
Theorem C105_output_readable_refuted : exists es o, parse_data (txt "1973 2 1 nan") = (es, None) /\ monthly es /\
  script_text (txt "1973 2 1 nan") = (o, None) /\ forall env, ~ module_binds o env.
Proof. exact nan_unreadable. Qed.
Print Assumptions C105_output_readable_refuted.
(* for finite values it is readable, and each value is the one read to four decimals *)
Theorem C105_output_readable_partial : forall data es, parse_data data = (es, None) -> monthly es ->
  Forall (fun e => is_finite (e_dt e) = true /\ (Rabs (B2R (e_dt e)) <= bpow radix2 900)%R) es ->
  exists o base_year base_month rows, script_text data = (o, None) /\
  (forall env, module_binds o env <-> env = table_env base_year base_month rows) /\
  Forall2 (fun e x => is_finite x = true /\ (Rabs (B2R x - B2R (e_dt e)) <= 5.1e-5 + 1.2e-16 * Rabs (B2R (e_dt e)))%R) es (List.concat rows).
Proof. exact text_rounds. Qed.
Print Assumptions C105_output_readable_partial.
Example C105_case : exists x, parse_data (txt "+1973 02 1 4.347246e1") = ([mkentry 1973 2 1 x], None) /\ is_finite x = true /\
  (Rabs (B2R x) <= bpow radix2 900)%R.
Proof. exact rounding_sample. Qed.

(* ------------------------------------------------------------------------------- C106 *)
(* the text in solartime.py is read by Python as the table used by the model of get_delta_t, and by
   nothing else *)
Theorem C106_source_table : forall env, module_binds (txt table_source) env <->
  env = table_env delta_t_base_year delta_t_base_month (map (map flit) Tables.delta_t).
Proof. exact source_binds. Qed.
Print Assumptions C106_source_table.
(* and it is what the script writes for some input, except for its first line, a comment *)
Theorem C106_source_generated : exists data es body, data_file data es /\ txt table_source = first_line ++ body /\
  script_text data = (script_line ++ body, None).
Proof. exact source_generated. Qed.
Print Assumptions C106_source_generated.
