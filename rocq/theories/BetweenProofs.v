(* Datetime subtraction agrees with SpecSpan. *)
From Coq Require Import ZArith Lia List.
From Verif Require Import Py Cal Simulate SpecTime SpecDt SpecSpan SimulateProofs Samples.
Import ListNotations.
Local Open Scope Z_scope.

Lemma instant_offset d u : instant d u -> exists o, utcoffset d = Ok (Some o) /\ u = dt_local d - o.
Proof.
  intros (tz & o & T & O & B & ->). exists o. split; [|reflexivity]. unfold utcoffset. rewrite T, O.
  now rewrite (proj2 (Z.ltb_lt _ _) B).
Qed.
Lemma between_sub a b span : between a b span -> dt_sub b a = Ok span.
Proof.
  intros [A B|x y A B E|x y ua ub A B E IA IB]; unfold dt_sub; rewrite ?A, ?B; cbn [same_tz]; [reflexivity|now rewrite E, Z.eqb_refl|].
  rewrite (proj2 (Z.eqb_neq _ _)) by congruence. destruct (instant_offset _ _ IA) as (oa & -> & ->), (instant_offset _ _ IB) as (ob & -> & ->). reflexivity.
Qed.

(* ---------------------------------------------------------------- samples for C40, C41, C43 *)
Lemma range_samples :
  let a := mk 2020 2 28 23 0 0 0 (Some utc) in
  let b := mk 2020 2 29 2 0 0 0 (Some utc) in
  let c := mk 2020 2 28 21 0 0 0 (Some sample_tz) in
  (valid_dt a /\ between a b (3 * 3600 * 1000000) /\ between a c (3 * 3600 * 1000000) /\ timedelta_ok (60 * minute_us) = true) /\
  map dt_local (g_items (datetime_range a b (StepInt 60))) =
  map dt_local [mk 2020 2 28 23 0 0 0 None; mk 2020 2 29 0 0 0 0 None; mk 2020 2 29 1 0 0 0 None].
Proof.
  cbv zeta. split; [|vm_compute; reflexivity]. split; [vm_compute; reflexivity|]. split; [|split; [|vm_compute; reflexivity]].
  - refine (eq_ind _ _ (bt_same _ _ utc utc _ _ _) _ _); vm_compute; reflexivity.
  - refine (eq_ind _ _ (bt_zones _ _ utc sample_tz _ _ _ _ _ _ _) _ _).
    4:{ exists utc, 0. repeat split. }
    4:{ exists sample_tz, (-18000 * 1000000). repeat split. }
    all: try (vm_compute; reflexivity). vm_compute. discriminate.
Qed.
Lemma coverage_samples : let a := mk 2020 3 1 0 0 0 0 (Some utc) in let b := mk 2020 3 1 1 0 0 0 (Some utc) in
  valid_dt a /\ between a b 3600000000 /\ 3600000000 mod (15 * minute_us) = 0 /\
  dt_local (nth_time a 15 3) = dt_local (mk 2020 3 1 0 45 0 0 (Some utc)) /\ dt_local (nth_time a 15 3) < dt_local b.
Proof. cbv zeta. split; [vm_compute; reflexivity|]. split; [refine (eq_ind _ _ (bt_same _ _ utc utc _ _ _) _ _); vm_compute; reflexivity|]. vm_compute. auto. Qed.
Lemma short_horizon_samples : let stop := mk 2020 6 21 18 0 0 0 (Some sample_tz) in
  valid_dt sample_dt /\ dt_fold sample_dt = false /\ between sample_dt stop (6 * 3600000000)%Z /\
  timedelta_ok (60 * minute_us) = true /\ (60 * minute_us <= 6 * 3600000000)%Z /\
  (dt_local sample_dt + 6 * 3600000000 <= max_us)%Z.
Proof.
  cbv zeta. split; [vm_compute; reflexivity|]. split; [reflexivity|]. split; [refine (eq_ind _ _ (bt_same _ _ sample_tz sample_tz _ _ _) _ _); vm_compute; reflexivity|].
  vm_compute. intuition discriminate.
Qed.
