(** * Property C109: integer code values through decoder and encoder, in binary32. *)
From Coq Require Import ZArith Reals Lra Lia.
From Flocq Require Import Core BinarySingleNaN.
From Verif Require Import Num NumF MVec MTri MOtf F32 PLibm PCodes PCodes2.
Local Open Scope R_scope.

(** C109: [k] of [M] as a float is [k / M] (two int-to-float conversions and a division); the re-encoded value,
    times [M], is nearer to [k] than to any other integer. *)
Theorem C109_codes_sRGB (lm : libm) (k M : Z) : accurate lm -> (0 <= k <= M)%Z -> (0 < M <= 32768)%Z ->
  Rabs (IZR M * B2R (Y_to_sRGB (FN lm) (sRGB_to_Y (FN lm) (@fdiv (FN lm) (@fofZ (FN lm) k) (@fofZ (FN lm) M)))) - IZR k) < / 2.
Proof. exact (fun A => srgb_codes lm A k M). Qed.
Print Assumptions C109_codes_sRGB.
Theorem C109_codes_HLG (lm : libm) (k M : Z) : accurate lm -> (0 <= k <= M)%Z -> (0 < M <= 131072)%Z ->
  Rabs (IZR M * B2R (Y_to_HLG (FN lm) (HLG_to_Y (FN lm) (@fdiv (FN lm) (@fofZ (FN lm) k) (@fofZ (FN lm) M)))) - IZR k) < / 2.
Proof. exact (fun A => hlg_codes lm A k M). Qed.
Print Assumptions C109_codes_HLG.
Theorem C109_codes_ST2084 (lm : libm) (k M : Z) : accurate lm -> (0 <= k <= M)%Z -> (0 < M <= 4990)%Z ->
  Rabs (IZR M * B2R (Y_to_ST2084 (FN lm) (ST2084_to_Y (FN lm) (@fdiv (FN lm) (@fofZ (FN lm) k) (@fofZ (FN lm) M)))) - IZR k) < / 2.
Proof. exact (fun A => pq_codes lm A k M). Qed.
Print Assumptions C109_codes_ST2084.
Theorem C109_codes_BT709 (lm : libm) (k M : Z) : accurate lm -> (0 <= k <= M)%Z -> (0 < M <= 1900)%Z ->
  Rabs (IZR M * B2R (Y_to_BT709 (FN lm) (BT709_to_Y (FN lm) (@fdiv (FN lm) (@fofZ (FN lm) k) (@fofZ (FN lm) M)))) - IZR k) < / 2.
Proof. exact (fun A => bt_codes lm A k M). Qed.
Print Assumptions C109_codes_BT709.
(** Twelve-bit BT.709 codes do not survive: 332 comes back below 331.5. *)
Theorem C109_codes_BT709_12bit_refuted (lm : libm) : accurate lm -> exists k M : Z, (0 <= k <= M)%Z /\ M = 4095%Z /\
  IZR M * B2R (Y_to_BT709 (FN lm) (BT709_to_Y (FN lm) (@fdiv (FN lm) (@fofZ (FN lm) k) (@fofZ (FN lm) M)))) < IZR k - / 2.
Proof. exact (bt_codes_refuted lm). Qed.
Print Assumptions C109_codes_BT709_12bit_refuted.
(** an accurate library exists; the integers of common bit depths are covered. *)
Example C109_case : (exists lm, accurate lm) /\ (0 <= 128 <= 255)%Z /\ (0 < 1023 <= 1900)%Z /\ (0 < 4095 <= 4990)%Z /\ (0 < 65535 <= 131072)%Z.
Proof. split; [exact accurate_exists|lia]. Qed.
