(** * Oklab against the published definition. *)
From Coq Require Import ZArith Reals Lra Psatz.
From Verif Require Import Num NumR MVec MTri MDelta RTac SpecMat PMat PGamut PDelta PSpec PTables PD65 SpecOklab.
Local Open Scope R_scope.

Lemma cube_mono a b : a <= b -> a * a * a <= b * b * b.
Proof.
  intros H. assert (E : b * b * b - a * a * a = (b - a) * ((a + b) * (a + b) + a * a + b * b) / 2) by field.
  assert (0 <= (b - a) * ((a + b) * (a + b) + a * a + b * b)) by (apply Rmult_le_pos; nra). lra.
Qed.
Lemma cbrt_between x a b : a * a * a < x < b * b * b -> a < R_cbrt x < b.
Proof.
  intros [H1 H2]. pose proof (cbrt_cube x) as E. split.
  - destruct (Rlt_dec a (R_cbrt x)) as [L|L]; [exact L|]. pose proof (cube_mono (R_cbrt x) a ltac:(lra)). lra.
  - destruct (Rlt_dec (R_cbrt x) b) as [L|L]; [exact L|]. pose proof (cube_mono b (R_cbrt x) ltac:(lra)). lra.
Qed.
Lemma cbrt_pow3 x : R_cbrt x ^ 3 = x.
Proof. rewrite <- (cbrt_cube x) at 2. ring. Qed.
Lemma cbrt_unique x y : y ^ 3 = x -> y = R_cbrt x.
Proof. intros <-. replace (y ^ 3) with (y * y * y) by ring. symmetry. apply cbrt_of_cube. Qed.
Lemma oklab_eq t : XYZ_to_OKLAB RN (finV t) = finV (oklab t).
Proof. apply oklab_fin. Qed.
Lemma oklab_coords t : let l := R_cbrt (0.8189330101 * v0 t + 0.3618667424 * v1 t - 0.1288597137 * v2 t) in
  let m := R_cbrt (- 0.0329845436 * v0 t + 0.9293118715 * v1 t + 0.0361456387 * v2 t) in
  let s := R_cbrt (0.0482003018 * v0 t + 0.2643662691 * v1 t + 0.6338517070 * v2 t) in
  oklab t = V3 (0.2104542553 * l + 0.7936177850 * m - 0.0040720468 * s)
           (1.9779984951 * l - 2.4285922050 * m + 0.4505937099 * s)
           (0.0259040371 * l + 0.7827717662 * m - 0.8086757660 * s).
Proof.
  destruct t as [X Y Z']. cbv zeta. unfold oklab, applyR, cbrtV, okm1, okm2. spec.
  replace (0.8189330101 * X + 0.3618667424 * Y + - 0.1288597137 * Z') with (0.8189330101 * X + 0.3618667424 * Y - 0.1288597137 * Z') by lra.
  f_equal; lra.
Qed.
Lemma C105_agree_l (Y Z' : R) (lab : Vector3 R) :
  XYZ_to_OKLAB RN (finV (V3 0 Y Z')) = finV lab <-> published_oklab (V3 0 Y Z') lab.
Proof.
  rewrite oklab_fin, oklab_coords. cbn [v0 v1 v2].
  replace (- 0.0329845436 * 0) with (0.0329845436 * 0) by lra. split.
  - intros H. apply finV_inj in H. eexists _, _, _. repeat split; [| | |symmetry; exact H]; cbn [v0 v1 v2].
    all: apply cbrt_pow3.
  - intros (l & m & s & A & B & C & ->). cbn [v0 v1 v2] in *. apply cbrt_unique in A, B, C. now rewrite <- A, <- B, <- C.
Qed.
Lemma C105_form_l (t : Vector3 R) : exists l m s : R,
  l ^ 3 = 0.8189330101 * v0 t + 0.3618667424 * v1 t - 0.1288597137 * v2 t /\
  m ^ 3 = - 0.0329845436 * v0 t + 0.9293118715 * v1 t + 0.0361456387 * v2 t /\
  s ^ 3 = 0.0482003018 * v0 t + 0.2643662691 * v1 t + 0.6338517070 * v2 t /\
  XYZ_to_OKLAB RN (finV t) = finV (V3 (0.2104542553 * l + 0.7936177850 * m - 0.0040720468 * s)
           (1.9779984951 * l - 2.4285922050 * m + 0.4505937099 * s)
           (0.0259040371 * l + 0.7827717662 * m - 0.8086757660 * s)).
Proof.
  rewrite oklab_fin, oklab_coords. eexists _, _, _. repeat split; apply cbrt_pow3.
Qed.
Lemma published_exists t : exists lab, published_oklab t lab.
Proof.
  eexists. eexists (R_cbrt _), (R_cbrt _), (R_cbrt _). repeat split; apply cbrt_pow3.
Qed.
Lemma C105_l : exists (t lab ok : Vector3 R), XYZ_to_OKLAB RN (finV t) = finV lab /\ published_oklab t ok /\
  v0 lab < - 0.05 /\ 0.4 < v0 ok.
Proof.
  exists (V3 1 0 0). destruct (published_exists (V3 1 0 0)) as [ok P]. eexists. exists ok. split; [apply oklab_fin|]. split; [exact P|].
  destruct P as (l & m & s & A & B & C & ->). rewrite oklab_coords. cbn [v0 v1 v2] in *. apply cbrt_unique in A, B, C. subst l m s.
  pose proof (cbrt_between (0.8189330101 * 1 + 0.3618667424 * 0 - 0.1288597137 * 0) 0.935 0.936 ltac:(lra)).
  pose proof (cbrt_between (0.0329845436 * 1 + 0.9293118715 * 0 + 0.0361456387 * 0) 0.32 0.321 ltac:(lra)).
  pose proof (cbrt_between (- 0.0329845436 * 1 + 0.9293118715 * 0 + 0.0361456387 * 0) (-0.321) (-0.32) ltac:(lra)).
  pose proof (cbrt_between (0.0482003018 * 1 + 0.2643662691 * 0 + 0.6338517070 * 0) 0.36 0.37 ltac:(lra)).
  split; lra.
Qed.
Lemma C105_white_l : exists (t lab ok : Vector3 R), t = V3 0.95047 1 1.08883 /\
  XYZ_to_OKLAB RN (finV t) = finV lab /\ published_oklab t ok /\
  Rabs (v0 ok - 1) < 0.001 /\ Rabs (v1 ok) < 0.001 /\ Rabs (v2 ok) < 0.001 /\ 0.05 < v1 lab /\ v2 lab < - 0.016.
Proof.
  exists (V3 0.95047 1 1.08883). destruct (published_exists (V3 0.95047 1 1.08883)) as [ok P]. eexists. exists ok. split; [reflexivity|]. split; [apply oklab_fin|]. split; [exact P|].
  destruct P as (l & m & s & A & B & C & ->). rewrite oklab_coords. cbn [v0 v1 v2] in *. apply cbrt_unique in A, B, C. subst l m s.
  pose proof (cbrt_between (0.8189330101 * 0.95047 + 0.3618667424 * 1 - 0.1288597137 * 1.08883) 0.9999 1.0001 ltac:(lra)).
  pose proof (cbrt_between (0.0329845436 * 0.95047 + 0.9293118715 * 1 + 0.0361456387 * 1.08883) 0.9999 1.0001 ltac:(lra)).
  pose proof (cbrt_between (- 0.0329845436 * 0.95047 + 0.9293118715 * 1 + 0.0361456387 * 1.08883) 0.978 0.979 ltac:(lra)).
  pose proof (cbrt_between (0.0482003018 * 0.95047 + 0.2643662691 * 1 + 0.6338517070 * 1.08883) 0.9999 1.0002 ltac:(lra)).
  repeat split; try apply Rabs_def1; lra.
Qed.
