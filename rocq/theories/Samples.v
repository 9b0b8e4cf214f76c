(* One concrete datetime used by the examples: 2020-06-21 12:00 at UTC-5, i.e. 17:00 UTC, day
   173 of the year; and the same reading without a time zone. *)
From Coq Require Import Reals Lia.
From Verif Require Import Py Num Cal TzCheck Clock SpecTime SpecDt SpecEng.

Definition sample_tz : tzinfo := fixed_tz (-18000 * 1000000).
Definition sample_dt : datetime := mk 2020 6 21 12 0 0 0 (Some sample_tz).
Definition sample_naive : datetime := mk 2020 6 21 12 0 0 0 None.
Definition sample_u : Z := (midnight 2020 6 21 + 17 * 3600000000)%Z.

Lemma sample_instant : instant sample_dt sample_u.
Proof. do 2 eexists. split; [reflexivity|]. split; [reflexivity|]. split; [reflexivity|]. vm_compute. reflexivity. Qed.
Lemma sample_in_range : in_range sample_u = true.
Proof. vm_compute. reflexivity. Qed.
Lemma sample_whole : whole_minute_offset sample_dt.
Proof. exists sample_tz, (-300)%Z. split; reflexivity. Qed.
Lemma sample_clock : civil_clock sample_u 173 17 0.
Proof. split; [exists 2020%Z; vm_compute; intuition discriminate|lia]. Qed.
Lemma sample_local_clock : civil_clock (dt_local sample_dt) 173 12 0.
Proof. split; [exists 2020%Z; vm_compute; intuition discriminate|lia]. Qed.
Lemma sample_fixed : fixed_offset sample_dt (-18000 * 1000000).
Proof. exists sample_tz. repeat split. Qed.
Lemma sample_inside : inside_calendar sample_dt.
Proof. vm_compute. intuition discriminate. Qed.
Lemma sample_is_naive : naive sample_naive /\ valid_dt sample_naive.
Proof. split; vm_compute; reflexivity. Qed.
