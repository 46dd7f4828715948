(** * Model of [class Spectrum] and [class Observer]
    (include/colorsystem.hpp:1236-1351, 1542-1584). *)
From Coq Require Import ZArith List Bool.
From Verif Require Import Num MVec MTri.
Import ListNotations.
Local Open Scope num_scope.

Section WithNum.
Context (N : Num).
Local Notation F := (F N).
Local Notation T3 := (Vector3 F).

(** hpp:1239-1243  [std::array<float, 400> s_]: a list; every spectrum has
    length 400 (the type's invariant, [wf_spectrum]). *)
Definition Spectrum := list F.
Definition wf_spectrum (s : Spectrum) : Prop := length s = 400%nat.

(** hpp:1265  [operator[]], arbitrary run-time index. *)
Definition arr_get (l : list F) (i : Z) : outcome F :=
  if (0 <=? i)%Z then of_option (nth_error l (Z.to_nat i)) else UB.
Definition S_index (s : Spectrum) (i : Z) : outcome F := arr_get s i.
(** reads at the constant/loop indices 0..399 of a well-formed spectrum. *)
Definition sref (s : Spectrum) (i : nat) : F := nth i s fnan.

(** the loops [for (int i = 0; i < 400; i++) s[i] = e(i)]. *)
Definition S_tabulate (e : nat -> F) : Spectrum := map e (seq 0 400).

(** hpp:1244  [lerp]. *)
Definition lerp (a b r : F) : F := a * (fofZ 1 - r) + b * r.

(** hpp:1245-1255  [fetch(sample, samples, lo, hi, t)]; [sample] is the list of
    floats the pointer points to. [index + 1] overflowing an int is undefined. *)
Definition fetch (sample : list F) (samples : Z) (lo hi t : F) : outcome F :=
  let count := (samples - 1)%Z in
  let! index := of_option (ftoint (fofZ count * (t - lo) / (hi - lo))) in
  let l := fofZ index * (hi - lo) / fofZ count in
  if (index =? 2147483647)%Z then UB
  else
    let h := fofZ (index + 1) * (hi - lo) / fofZ count in
    if (count <=? index)%Z then arr_get sample count
    else if (index <=? 0)%Z then arr_get sample 0
    else
      let! a := arr_get sample index in
      let! b := arr_get sample (index + 1) in
      Ret (lerp a b ((t - l - lo) / (h - l))).

(** hpp:1256  [fetch(lambda)]. *)
Definition S_fetch (s : Spectrum) (lambda : F) : outcome F :=
  fetch s 400 #380 #779 lambda.

Fixpoint mapM {A B} (f : A -> outcome B) (l : list A) : outcome (list B) :=
  match l with
  | [] => Ret []
  | x :: t => let! y := f x in let! r := mapM f t in Ret (y :: r)
  end.

(** hpp:1258-1264  constructor from samples. *)
Definition S_of_samples (sample : list F) (samples : Z) (lo hi : F) : outcome Spectrum :=
  mapM (fun i => fetch sample samples lo hi (#380 + fofZ (Z.of_nat i))) (seq 0 400).
(** hpp:1258  default arguments. *)
Definition S_of_samples_default (sample : list F) : outcome Spectrum :=
  S_of_samples sample 400 #380 #779.

(** hpp:1269-1281  [planck]. *)
Definition planck (T l : D N) : D N :=
  let hcc := dlit 5.950379064e-17 in
  let hc_k := dlit 1.438776827e-2 in
  let arg1 := dmul (dofZ 2) hcc in
  widen (narrow (ddiv (dmul arg1 (dpow l (dofZ (-5))))
                      (dsub (dexp (ddiv hc_k (dmul l T))) (dlit 1.0)))
         / #1e9).

(** hpp:1283-1291  [blackbody]. *)
Definition S_blackbody (temp : F) : Spectrum :=
  S_tabulate (fun i =>
    narrow (planck (widen temp) (dmul (widen (#380 + fofZ (Z.of_nat i))) (dlit 1e-9)))).
(** hpp:1292-1300  [E]. *)
Definition S_E (e : F) : Spectrum := S_tabulate (fun _ => e).
(** hpp:1301-1309  [mul(Spectrum, float)]. *)
Definition S_scale (a : Spectrum) (b : F) : Spectrum := S_tabulate (fun i => sref a i * b).
(** hpp:1310-1318  [mul(Spectrum, Spectrum)]. *)
Definition S_mul (a b : Spectrum) : Spectrum := S_tabulate (fun i => sref a i * sref b i).
(** hpp:1319-1327  [add]. *)
Definition S_add (a b : Spectrum) : Spectrum := S_tabulate (fun i => sref a i + sref b i).

(** hpp:1331-1336  [sumHelper], [sum]. *)
Fixpoint sumHelper (a : Spectrum) (i : nat) : F :=
  match i with
  | O => sref a 0
  | S i' => sumHelper a i' + sref a i
  end.
Definition S_sum (a : Spectrum) : F := sumHelper a 399.
(** hpp:1337-1342  [dotHelper], [dot]. *)
Fixpoint dotHelper (a b : Spectrum) (i : nat) : F :=
  match i with
  | O => sref a 0 * sref b 0
  | S i' => sref a i * sref b i + dotHelper a b i'
  end.
Definition S_dot (a b : Spectrum) : F := dotHelper a b 399.
(** hpp:1343-1350  [dotHelper3], [dot3]. *)
Fixpoint dotHelper3 (a b c : Spectrum) (i : nat) : F :=
  match i with
  | O => sref a 0 * sref b 0 * sref c 0
  | S i' => sref a i * sref b i * sref c i + dotHelper3 a b c i'
  end.
Definition S_dot3 (a b c : Spectrum) : F := dotHelper3 a b c 399.

(** hpp:1542-1551  [class Observer]. *)
Record Observer := mkObserver {
  o_X : Spectrum; o_Y : Spectrum; o_Z : Spectrum; o_normalize : T3 }.
Definition Observer_make (X Y Z : Spectrum) : Observer :=
  mkObserver X Y Z (V3 (#1 / S_sum X) (#1 / S_sum Y) (#1 / S_sum Z)).
(** hpp:1552-1556 *)
Definition SpectrumIntegrate (s x y z : Spectrum) : T3 :=
  V3 (S_dot s x) (S_dot s y) (S_dot s z).
(** hpp:1557-1561 *)
Definition SpectrumIntegrate3 (r l x y z : Spectrum) : T3 :=
  V3 (S_dot3 r l x) (S_dot3 r l y) (S_dot3 r l z).
(** hpp:1562-1565 *)
Definition fromSpectrum (o : Observer) (s : Spectrum) : T3 :=
  T_mul N (SpectrumIntegrate s (o_X o) (o_Y o) (o_Z o)) (o_normalize o).
(** hpp:1566-1569 *)
Definition fromReflectanceAndLight (o : Observer) (r l : Spectrum) : T3 :=
  T_mul N (SpectrumIntegrate3 r l (o_X o) (o_Y o) (o_Z o)) (o_normalize o).
(** hpp:1570-1573 *)
Definition lumensFromMonochromaticFlux (o : Observer) (lambda watt : F) : outcome F :=
  let! y := S_fetch (o_Y o) lambda in
  Ret (y * watt * #683.0).
(** hpp:1574-1578 *)
Definition candellasFromMonochromaticRadiance (o : Observer) (lambda w : F) : outcome T3 :=
  let! x := S_fetch (o_X o) lambda in
  let! y := S_fetch (o_Y o) lambda in
  let! z := S_fetch (o_Z o) lambda in
  Ret (T_scale N (T_scale N (V3 x y z) #683.0) w).
(** hpp:1579-1582 *)
Definition Observer_xyz (o : Observer) (lambda : F) : outcome T3 :=
  let! x := S_fetch (o_X o) lambda in
  let! y := S_fetch (o_Y o) lambda in
  let! z := S_fetch (o_Z o) lambda in
  Ret (T_mul N (V3 x y z) (o_normalize o)).

(** hpp:7377-7385  [Macbeth::reference]; the table [Patch] is a parameter here,
    its 24 entries are in [Tables.v]. *)
Definition Macbeth_reference (Patch : list Spectrum) (light : Spectrum) (obs : Observer) : list T3 :=
  map (fun p => fromReflectanceAndLight obs p light) Patch.

End WithNum.

Arguments mkObserver {N}. Arguments o_X {N}. Arguments o_Y {N}. Arguments o_Z {N}.
Arguments o_normalize {N}.
