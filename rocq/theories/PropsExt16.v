(** * Properties C133 and C134: integer S-Log codes through decoder and encoder, in binary32. *)
From Coq Require Import ZArith Reals Lra Lia.
From Flocq Require Import Core BinarySingleNaN.
From Verif Require Import Num NumF MVec MTri MOtf F32 PLibm PCodes PSlogC.
Local Open Scope R_scope.

(** C133: [k] of [M] as a float is [k / M]; from black up the re-encoded value, times [M], is nearer to [k] than to any
    other integer, and below black it is within half a code of black. *)
Theorem C133_slog (lm : libm) (k M : Z) : accurate lm -> (0 <= k <= M)%Z -> (0 < M <= 524288)%Z ->
  let r := IZR M * B2R (Y_to_SLog (FN lm) (SLog_to_Y (FN lm) (@fdiv (FN lm) (@fofZ (FN lm) k) (@fofZ (FN lm) M)))) in
  (0.0300013 * IZR M <= IZR k -> Rabs (r - IZR k) < / 2) /\
  (IZR k <= 0.0300012 * IZR M -> 0.0300012 * IZR M - / 2 < r < 0.0300013 * IZR M + / 2).
Proof. exact (fun A => slog_codes_split lm A k M). Qed.
Print Assumptions C133_slog.
Theorem C133_slog2 (lm : libm) (k M : Z) : accurate lm -> (0 <= k <= M)%Z -> (0 < M <= 524288)%Z ->
  let r := IZR M * B2R (Y_to_SLog2 (FN lm) (SLog2_to_Y (FN lm) (@fdiv (FN lm) (@fofZ (FN lm) k) (@fofZ (FN lm) M)))) in
  (0.0881652 * IZR M <= IZR k -> Rabs (r - IZR k) < / 2) /\
  (IZR k <= 0.088165 * IZR M -> 0.088165 * IZR M - / 2 < r < 0.0881652 * IZR M + / 2).
Proof. exact (fun A => slog2_codes_split lm A k M). Qed.
Print Assumptions C133_slog2.
(** an accurate library exists; ten-bit codes 500 (above both blacks) and 10 (below both). *)
Example C133_case : (exists lm, accurate lm) /\ (0 <= 500 <= 1023)%Z /\ 0.0881652 * IZR 1023 <= IZR 500 /\ 0.0300013 * IZR 1023 <= IZR 500 /\
  (0 <= 10 <= 1023)%Z /\ IZR 10 <= 0.0300012 * IZR 1023 /\ IZR 10 <= 0.088165 * IZR 1023.
Proof. split; [exact accurate_exists|]. repeat split; try lia; lra. Qed.

(** C134: S-Log3. *)
Theorem C134_linear_partial (lm : libm) (k M : Z) : (0 <= k <= M)%Z -> (0 < M <= 2097152)%Z -> 1023 * IZR k <= 171 * IZR M ->
  Rabs (IZR M * B2R (Y_to_SLog3 (FN lm) (SLog3_to_Y (FN lm) (@fdiv (FN lm) (@fofZ (FN lm) k) (@fofZ (FN lm) M)))) - IZR k) < / 2.
Proof. exact (slog3_lo_codes lm k M). Qed.
Print Assumptions C134_linear_partial.
(** every code of the logarithmic part comes back between 421.4 and 424.8 of 1023. *)
Theorem C134_log_partial (lm : libm) (k M : Z) : accurate lm -> (0 <= k <= M)%Z -> (0 < M <= 16777216)%Z -> 171.23 * IZR M <= 1023 * IZR k ->
  421.4 <= 1023 * B2R (Y_to_SLog3 (FN lm) (SLog3_to_Y (FN lm) (@fdiv (FN lm) (@fofZ (FN lm) k) (@fofZ (FN lm) M)))) <= 424.8.
Proof. exact (fun A => slog3_hi_codes lm A k M). Qed.
Print Assumptions C134_log_partial.
Theorem C134_codes_refuted : exists (lm : libm) (k M : Z), accurate lm /\ (0 <= k <= M)%Z /\ M = 1023%Z /\
  598 < IZR k - IZR M * B2R (Y_to_SLog3 (FN lm) (SLog3_to_Y (FN lm) (@fdiv (FN lm) (@fofZ (FN lm) k) (@fofZ (FN lm) M)))).
Proof. exact slog3_codes_refuted. Qed.
Print Assumptions C134_codes_refuted.
Example C134_case : (exists lm, accurate lm) /\ (0 <= 100 <= 1023)%Z /\ 1023 * IZR 100 <= 171 * IZR 1023 /\ 171.23 * IZR 1023 <= 1023 * IZR 500.
Proof. split; [exact accurate_exists|]. repeat split; try lia; lra. Qed.
