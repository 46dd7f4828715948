(** * The values that fusing allows. *)
From Coq Require Import ZArith Reals Lra Lia List.
From Flocq Require Import Core BinarySingleNaN.
From Verif Require Import Num NumF MVec MTri MFma F32 PMatF PFma.
Import ListNotations.
Local Open Scope R_scope.

(** [e] has exactly the values with the real values [l], all finite. *)
Definition values (lm : libm) (e : exp) (l : list R) : Prop :=
  (forall r, ev lm e r -> fin r /\ In (B2R r) l) /\ (forall v, In v l -> exists r, ev lm e r /\ fin r /\ B2R r = v).

Section WithLibm.
Variable lm : libm.
Let N := FN lm.
Lemma rnd_le_bpow k v : (-100 <= k <= 126)%Z -> Rabs v <= bpow radix2 k -> Rabs (rnd v) <= bpow radix2 k.
Proof. intros K H. apply rnd_abs_le; [apply fmt_bpow; lia|exact H]. Qed.
Lemma b125 : bpow radix2 125 + bpow radix2 125 <= bpow radix2 127.
Proof. replace (bpow radix2 127) with (4 * bpow radix2 125) by (change 4 with (bpow radix2 2); rewrite <- bpow_plus; reflexivity). pose proof (bpow_gt_0 radix2 125). lra. Qed.
Lemma two x y : Rabs x <= bpow radix2 125 -> Rabs y <= bpow radix2 125 -> Rabs (x + y) <= bpow radix2 127.
Proof. intros. pose proof b125. eapply Rle_trans; [apply Rabs_triang|lra]. Qed.
Lemma twom x y : Rabs x <= bpow radix2 125 -> Rabs y <= bpow radix2 125 -> Rabs (x - y) <= bpow radix2 127.
Proof. intros. unfold Rminus. apply two; [assumption|now rewrite Rabs_Ropp]. Qed.
Lemma addR (x y : f32) a b : fin x -> fin y -> B2R x = a -> B2R y = b -> Rabs (a + b) <= bpow radix2 127 -> fin (@fadd N x y) /\ B2R (@fadd N x y) = rnd (a + b).
Proof. intros X Y <- <-. now apply add_ok. Qed.
Lemma subR (x y : f32) a b : fin x -> fin y -> B2R x = a -> B2R y = b -> Rabs (a - b) <= bpow radix2 127 -> fin (@fsub N x y) /\ B2R (@fsub N x y) = rnd (a - b).
Proof. intros X Y <- <-. now apply sub_ok. Qed.
Lemma fmaR (x y z : f32) a b c : fin x -> fin y -> fin z -> B2R x = a -> B2R y = b -> B2R z = c -> Rabs (a * b + c) <= bpow radix2 127 -> fin (fma x y z) /\ B2R (fma x y z) = rnd (a * b + c).
Proof. intros X Y Z <- <- <-. now apply fma_ok. Qed.
Lemma evVal x r : ev lm (Val x) r -> r = x.
Proof. intros E. now inversion E. Qed.
Lemma evMul x y r : ev lm (Mul (Val x) (Val y)) r -> r = @fmul N x y.
Proof. intros E. inversion E; subst. repeat match goal with H : ev _ (Val _) _ |- _ => apply evVal in H end. now subst. Qed.
Ltac inval := repeat match goal with H : ev _ (Val _) ?r |- _ => apply evVal in H; subst r end.

Section Forms.
Variables x y z : f32.
Hypothesis (X : fin x) (Y : fin y) (Z : fin z).
Hypothesis (B : Rabs (B2R x * B2R y) <= bpow radix2 125) (C : Rabs (B2R z) <= bpow radix2 125).
Let m127 : Rabs (B2R x * B2R y) <= bpow radix2 127.
Proof. eapply Rle_trans; [exact B|]. apply bpow_le. lia. Qed.
Let P := B2R x * B2R y.
Let RP : Rabs (rnd P) <= bpow radix2 125.
Proof. apply rnd_le_bpow; [lia|exact B]. Qed.
Lemma form_l : values lm (Add (Mul (Val x) (Val y)) (Val z)) [rnd (rnd P + B2R z); rnd (P + B2R z)].
Proof.
  destruct (mul_ok lm x y X Y m127) as [M1 M2]. destruct (addR _ z _ _ M1 Z M2 eq_refl) as [A1 A2]; [now apply two|].
  destruct (fma_ok x y z X Y Z) as [F1 F2]; [now apply two|].  split.
  - intros r E. inversion E; subst; clear E.
    + match goal with H : ev _ (Mul _ _) ?r |- _ => apply evMul in H; subst r end. inval. split; [exact A1|]. left. symmetry. exact A2.
    + inval. split; [exact F1|]. right. left. symmetry. exact F2.
  - intros v [<-|[<-|[]]].
    + exists (@fadd N (@fmul N x y) z). split; [repeat constructor|]. split; assumption.
    + exists (fma x y z). split; [apply ev_fma_l; constructor|]. split; assumption.
Qed.
Lemma form_r : values lm (Add (Val z) (Mul (Val x) (Val y))) [rnd (B2R z + rnd P); rnd (B2R z + P)].
Proof.
  destruct (mul_ok lm x y X Y m127) as [M1 M2]. destruct (addR z _ _ _ Z M1 eq_refl M2) as [A1 A2]; [now apply two|].
  destruct (fma_ok x y z X Y Z) as [F1 F2]; [now apply two|].  rewrite Rplus_comm in F2. split.
  - intros r E. inversion E; subst; clear E.
    + match goal with H : ev _ (Mul _ _) ?r |- _ => apply evMul in H; subst r end. inval. split; [exact A1|]. left. symmetry. exact A2.
    + inval. split; [exact F1|]. right. left. symmetry. exact F2.
  - intros v [<-|[<-|[]]].
    + exists (@fadd N z (@fmul N x y)). split; [repeat constructor|]. split; assumption.
    + exists (fma x y z). split; [apply ev_fma_r; constructor|]. split; assumption.
Qed.
Lemma form_s : values lm (Sub (Mul (Val x) (Val y)) (Val z)) [rnd (rnd P - B2R z); rnd (P - B2R z)].
Proof.
  destruct (mul_ok lm x y X Y m127) as [M1 M2]. destruct (subR _ z _ _ M1 Z M2 eq_refl) as [A1 A2]; [now apply twom|].
  destruct (opp_ok lm z Z) as [O1 O2].
  destruct (fmaR x y _ _ _ _ X Y O1 eq_refl eq_refl O2) as [F1 F2]; [now apply twom|].  split.
  - intros r E. inversion E; subst; clear E.
    + match goal with H : ev _ (Mul _ _) ?r |- _ => apply evMul in H; subst r end. inval. split; [exact A1|]. left. symmetry. exact A2.
    + inval. split; [exact F1|]. right. left. symmetry. exact F2.
  - intros v [<-|[<-|[]]].
    + exists (@fsub N (@fmul N x y) z). split; [repeat constructor|]. split; assumption.
    + exists (fma x y (@fopp N z)). split; [apply ev_fms; constructor|]. split; assumption.
Qed.
Lemma form_n : values lm (Sub (Val z) (Mul (Val x) (Val y))) [rnd (B2R z - rnd P); rnd (B2R z - P)].
Proof.
  destruct (mul_ok lm x y X Y m127) as [M1 M2]. destruct (subR z _ _ _ Z M1 eq_refl M2) as [A1 A2]; [now apply twom|].
  destruct (opp_ok lm x X) as [O1 O2].
  destruct (fmaR _ y z _ _ _ O1 Y Z O2 eq_refl eq_refl) as [F1 F2]; [replace (- B2R x * B2R y + B2R z) with (B2R z - P) by (unfold P; ring); now apply twom|].
   replace (- B2R x * B2R y + B2R z) with (B2R z - P) in F2 by (unfold P; ring). split.
  - intros r E. inversion E; subst; clear E.
    + match goal with H : ev _ (Mul _ _) ?r |- _ => apply evMul in H; subst r end. inval. split; [exact A1|]. left. symmetry. exact A2.
    + inval. split; [exact F1|]. right. left. symmetry. exact F2.
  - intros v [<-|[<-|[]]].
    + exists (@fsub N z (@fmul N x y)). split; [repeat constructor|]. split; assumption.
    + exists (fma (@fopp N x) y z). split; [apply ev_fnma; constructor|]. split; assumption.
Qed.
End Forms.

(** ** The dot product: three values of the first sum, two of the second. *)
Section Dot.
Variables a0 a1 a2 b0 b1 b2 : f32.
Hypothesis (A0 : fin a0) (A1 : fin a1) (A2 : fin a2) (B0 : fin b0) (B1 : fin b1) (B2 : fin b2).
Let p0 := B2R a0 * B2R b0. Let p1 := B2R a1 * B2R b1. Let p2 := B2R a2 * B2R b2.
Hypothesis (C0 : Rabs p0 <= bpow radix2 120) (C1 : Rabs p1 <= bpow radix2 120) (C2 : Rabs p2 <= bpow radix2 120).
Let first := [rnd (rnd p0 + rnd p1); rnd (p0 + rnd p1); rnd (rnd p0 + p1)].
Lemma up k : (k <= 127)%Z -> forall v, Rabs v <= bpow radix2 k -> Rabs v <= bpow radix2 127.
Proof. intros K v H. eapply Rle_trans; [exact H|]. now apply bpow_le. Qed.
Lemma sum121 x y : Rabs x <= bpow radix2 120 -> Rabs y <= bpow radix2 120 -> Rabs (x + y) <= bpow radix2 121.
Proof. intros. change 121%Z with (1 + 120)%Z. rewrite bpow_plus. change (bpow radix2 1) with 2. eapply Rle_trans; [apply Rabs_triang|lra]. Qed.
Lemma sum122 x y : Rabs x <= bpow radix2 121 -> Rabs y <= bpow radix2 120 -> Rabs (x + y) <= bpow radix2 127.
Proof. intros Hx Hy. apply two; [eapply Rle_trans; [exact Hx|]|eapply Rle_trans; [exact Hy|]]; apply bpow_le; lia. Qed.
Lemma le_of v w k : v = w -> Rabs w <= k -> Rabs v <= k.
Proof. now intros ->. Qed.
Lemma mulv (x y : f32) r : fin x -> fin y -> Rabs (B2R x * B2R y) <= bpow radix2 120 -> ev lm (Mul (Val x) (Val y)) r ->
  fin r /\ B2R r = rnd (B2R x * B2R y) /\ Rabs (B2R r) <= bpow radix2 120.
Proof.
  intros X Y H E. apply evMul in E. subst r. destruct (mul_ok lm x y X Y) as [M1 M2]; [eapply up; [|exact H]; lia|].
  split; [exact M1|]. split; [exact M2|]. apply (le_of _ _ _ M2). apply rnd_le_bpow; [lia|exact H].
Qed.
Lemma mulx (x y : f32) : fin x -> fin y -> Rabs (B2R x * B2R y) <= bpow radix2 120 -> exists r, ev lm (Mul (Val x) (Val y)) r /\
  fin r /\ B2R r = rnd (B2R x * B2R y) /\ Rabs (B2R r) <= bpow radix2 120.
Proof. intros X Y H. exists (@fmul N x y). assert (E : ev lm (Mul (Val x) (Val y)) (@fmul N x y)) by repeat constructor. split; [exact E|]. now apply mulv. Qed.
Lemma addv (x y : f32) : fin x -> fin y -> Rabs (B2R x + B2R y) <= bpow radix2 121 ->
  fin (@fadd N x y) /\ B2R (@fadd N x y) = rnd (B2R x + B2R y) /\ Rabs (B2R (@fadd N x y)) <= bpow radix2 121.
Proof.
  intros X Y H. destruct (add_ok lm x y X Y) as [M1 M2]; [eapply up; [|exact H]; lia|].
  split; [exact M1|]. split; [exact M2|]. apply (le_of _ _ _ M2). apply rnd_le_bpow; [lia|exact H].
Qed.
Lemma fmav (x y z : f32) : fin x -> fin y -> fin z -> Rabs (B2R x * B2R y + B2R z) <= bpow radix2 121 ->
  fin (fma x y z) /\ B2R (fma x y z) = rnd (B2R x * B2R y + B2R z) /\ Rabs (B2R (fma x y z)) <= bpow radix2 121.
Proof.
  intros X Y Z H. destruct (fma_ok x y z X Y Z) as [M1 M2]; [eapply up; [|exact H]; lia|].
  split; [exact M1|]. split; [exact M2|]. rewrite M2. apply rnd_le_bpow; [lia|exact H].
Qed.
Let S1 := Add (Mul (Val a0) (Val b0)) (Mul (Val a1) (Val b1)).
Lemma first_of r : ev lm S1 r -> fin r /\ In (B2R r) first /\ Rabs (B2R r) <= bpow radix2 121.
Proof.
  intros E. inversion E as [|a b x y E1 E2| | | | | |a b c x y z E1 E2 E3|a b c x y z E1 E2 E3| |]; subst; clear E.
  - destruct (mulv _ _ _ A0 B0 C0 E1) as (F1 & V1 & L1). destruct (mulv _ _ _ A1 B1 C1 E2) as (F2 & V2 & L2).
    destruct (addv x y F1 F2) as (F3 & V3 & L3); [now apply sum121|]. rewrite V1, V2 in V3.
    split; [exact F3|]. split; [|exact L3]. left. symmetry. exact V3.
  - inval. destruct (mulv _ _ _ A1 B1 C1 E3) as (F2 & V2 & L2).
    match goal with |- fin (fma ?x ?y ?z) /\ _ => destruct (fmav x y z) as (F3 & V3 & L3) end; try assumption; [now apply sum121|]. rewrite V2 in V3.
    split; [exact F3|]. split; [|exact L3]. right. left. symmetry. exact V3.
  - inval. destruct (mulv _ _ _ A0 B0 C0 E3) as (F2 & V2 & L2).
    match goal with |- fin (fma ?x ?y ?z) /\ _ => destruct (fmav x y z) as (F3 & V3 & L3) end; try assumption; [now apply sum121|]. rewrite V2, Rplus_comm in V3.
    split; [exact F3|]. split; [|exact L3]. right. right. left. symmetry. exact V3.
Qed.
Lemma first_all v : In v first -> exists r, ev lm S1 r /\ B2R r = v.
Proof.
  destruct (mulx _ _ A0 B0 C0) as (x & E1 & F1 & V1 & L1). destruct (mulx _ _ A1 B1 C1) as (y & E2 & F2 & V2 & L2).
  intros [<-|[<-|[<-|[]]]].
  - destruct (addv x y F1 F2) as (F3 & V3 & L3); [now apply sum121|]. exists (@fadd N x y). split; [now constructor|]. rewrite V1, V2 in V3. exact V3.
  - destruct (fmav a0 b0 y A0 B0 F2) as (F3 & V3 & L3); [now apply sum121|]. exists (fma a0 b0 y). split; [apply ev_fma_l; [constructor|constructor|exact E2]|]. rewrite V2 in V3. exact V3.
  - destruct (fmav a1 b1 x A1 B1 F1) as (F3 & V3 & L3); [now apply sum121|]. exists (fma a1 b1 x). split; [apply ev_fma_r; [constructor|constructor|exact E1]|]. rewrite V1, Rplus_comm in V3. exact V3.
Qed.
Lemma dot_values : values lm (V_dot (EN lm) (inV lm (V3 a0 a1 a2)) (inV lm (V3 b0 b1 b2))) (flat_map (fun s => [rnd (s + rnd p2); rnd (s + p2)]) first).
Proof.
  change (values lm (Add S1 (Mul (Val a2) (Val b2))) (flat_map (fun s => [rnd (s + rnd p2); rnd (s + p2)]) first)). split.
  - intros r E. inversion E as [|a b x y E1 E2| | | | | | |a b c x y z E1 E2 E3| |]; subst; clear E.
    + destruct (first_of _ E1) as (F1 & V1 & L1). destruct (mulv _ _ _ A2 B2 C2 E2) as (F2 & V2 & L2).
      destruct (add_ok lm x y F1 F2) as (F3 & V3); [now apply sum122|]. rewrite V2 in V3. split; [exact F3|].
      apply in_flat_map. exists (B2R x). split; [exact V1|]. left. symmetry. exact V3.
    + destruct (first_of _ E3) as (F1 & V1 & L1). inval.
      match goal with |- fin (fma ?x ?y ?z) /\ _ => destruct (fma_ok x y z) as (F3 & V3) end; try assumption; [rewrite Rplus_comm; now apply sum122|]. rewrite Rplus_comm in V3.
      split; [exact F3|]. apply in_flat_map. exists (B2R z). split; [exact V1|]. right. left. symmetry. exact V3.
  - intros v I. apply in_flat_map in I. destruct I as (s & Is & I). destruct (first_all s Is) as (x & E1 & <-). destruct (first_of _ E1) as (F1 & _ & L1).
    destruct (mulx _ _ A2 B2 C2) as (y & E2 & F2 & V2 & L2). destruct I as [<-|[<-|[]]].
    + destruct (add_ok lm x y F1 F2) as (F3 & V3); [now apply sum122|]. exists (@fadd N x y). split; [now constructor|]. rewrite V2 in V3. split; [exact F3|exact V3].
    + destruct (fma_ok a2 b2 x A2 B2 F1) as (F3 & V3); [rewrite Rplus_comm; now apply sum122|]. rewrite Rplus_comm in V3. exists (fma a2 b2 x).
      split; [apply ev_fma_r; [constructor|constructor|exact E1]|]. split; [exact F3|exact V3].
Qed.
End Dot.
End WithLibm.

(** 4097 * 4097 - 16785408 is 0 with two roundings and 1 with one. *)
Lemma ofZf (lm : libm) k : (Z.abs k <= 8388608)%Z -> fin (@fofZ (FN lm) k) /\ B2R (@fofZ (FN lm) k) = IZR k.
Proof. intros K. apply ofZ_ok. lia. Qed.
Lemma case166 (lm : libm) : exists x y z : f32, fin x /\ fin y /\ fin z /\ Rabs (B2R x * B2R y) <= bpow radix2 125 /\ Rabs (B2R z) <= bpow radix2 125 /\
  rnd (rnd (B2R x * B2R y) - B2R z) = 0 /\ rnd (B2R x * B2R y - B2R z) = 1.
Proof.
  destruct (ofZf lm 4097 ltac:(lia)) as [F1 V1]. set (x := @fofZ (FN lm) 4097) in *.
  assert (Big : 33554432 <= bpow radix2 125) by (change 33554432 with (bpow radix2 25); apply bpow_le; lia).
  destruct (mul_ok lm x x F1 F1) as [F2 V2]. { rewrite V1, Rabs_pos_eq; [|lra]. eapply Rle_trans; [|apply (bpow_le radix2 125 127); lia]. lra. }
  assert (E : B2R (@fmul (FN lm) x x) = 16785408).
  { transitivity (SF2R radix2 (B2SF (@fmul (FN lm) x x))); [symmetry; apply SF2R_B2SF|]. replace (B2SF (@fmul (FN lm) x x)) with (SpecFloat.S754_finite false 8392704 1) by (vm_compute; reflexivity). cbn. unfold F2R. cbn. lra. }
  exists x, x, (@fmul (FN lm) x x). do 3 (split; [assumption|]). rewrite V1. split; [rewrite Rabs_pos_eq; lra|]. rewrite V1 in V2.
  split; [apply (le_of _ _ _ E); rewrite Rabs_pos_eq; lra|]. split.
  - rewrite <- V2. match goal with |- rnd (?a - ?b) = 0 => replace (a - b) with 0 by (symmetry; apply Rminus_diag_eq; reflexivity) end. apply rnd_0.
  - replace (4097 * 4097 - B2R (@fmul (FN lm) x x)) with 1; [|rewrite E; lra]. apply rnd_id. change 1 with (bpow radix2 0). apply fmt_bpow. lia.
Qed.

(** ** Everything else has one value. *)
Definition only (lm : libm) (e : exp) (v : f32) : Prop := forall r, ev lm e r <-> r = v.
Lemma only1 lm f x : only lm (Op1 f (Val x)) (f x).
Proof. intros r. split; [|intros ->; repeat constructor]. intros E. inversion E as [| | | | |f' a x' E1| | | | |]; subst. apply evVal in E1. now subst. Qed.
Lemma only2 lm f x y : only lm (Op2 f (Val x) (Val y)) (f x y).
Proof. intros r. split; [|intros ->; repeat constructor]. intros E. inversion E as [| | | | | |f' a b x' y' E1 E2| | | |]; subst. apply evVal in E1, E2. now subst. Qed.
Ltac solo := intros E; inversion E; subst; repeat match goal with H : ev _ (Val _) _ |- _ => apply evVal in H end; now subst.
Lemma onlyA lm x y : only lm (Add (Val x) (Val y)) (@fadd (FN lm) x y).
Proof. intros r. split; [solo|intros ->; apply ev_add; constructor]. Qed.
Lemma onlyS lm x y : only lm (Sub (Val x) (Val y)) (@fsub (FN lm) x y).
Proof. intros r. split; [solo|intros ->; apply ev_sub; constructor]. Qed.
Lemma onlyM lm x y : only lm (Mul (Val x) (Val y)) (@fmul (FN lm) x y).
Proof. intros r. split; [solo|intros ->; apply ev_mul; constructor]. Qed.
Lemma onlyN lm x : only lm (Neg (Val x)) (@fopp (FN lm) x).
Proof. intros r. split; [solo|intros ->; apply ev_neg; constructor]. Qed.
Lemma rest lm (x y : f32) : let n := FN lm in let e := EN lm in let a : F e := Val x in let b : F e := Val y in
  (only lm (@fadd e a b) (@fadd n x y) /\ only lm (@fsub e a b) (@fsub n x y) /\ only lm (@fmul e a b) (@fmul n x y) /\ only lm (@fdiv e a b) (@fdiv n x y) /\
   only lm (@fopp e a) (@fopp n x) /\ only lm (@ffabs e a) (@ffabs n x)) /\
  (only lm (@fsqrt e a) (@fsqrt n x) /\ only lm (@fcbrt e a) (@fcbrt n x) /\ only lm (@fexp e a) (@fexp n x) /\ only lm (@flog e a) (@flog n x) /\
   only lm (@flog10 e a) (@flog10 n x) /\ only lm (@fsin e a) (@fsin n x) /\ only lm (@fcos e a) (@fcos n x) /\
   only lm (@fpow e a b) (@fpow n x y) /\ only lm (@fatan2 e a b) (@fatan2 n x y) /\ only lm (@ffmod e a b) (@ffmod n x y)) /\
  (@fltb e a b = @fltb n x y /\ @fleb e a b = @fleb n x y /\ @feqb e a b = @feqb n x y /\ @ftoint e a = @ftoint n x).
Proof.
  intros n e a b. split; [|split].
  - split; [apply onlyA|]. split; [apply onlyS|]. split; [apply onlyM|]. split; [apply only2|]. split; [apply onlyN|apply only1].
  - repeat match goal with |- _ /\ _ => split end; first [apply only1|apply only2].
  - repeat split.
Qed.
Lemma forms (lm : libm) (x y z : f32) : fin x -> fin y -> fin z ->
  Rabs (B2R x * B2R y) <= bpow radix2 125 -> Rabs (B2R z) <= bpow radix2 125 ->
  let a : F (EN lm) := Val x in let b : F (EN lm) := Val y in let c : F (EN lm) := Val z in let p := B2R x * B2R y in
  values lm (a * b + c)%num [rnd (rnd p + B2R z); rnd (p + B2R z)] /\ values lm (c + a * b)%num [rnd (B2R z + rnd p); rnd (B2R z + p)] /\
  values lm (a * b - c)%num [rnd (rnd p - B2R z); rnd (p - B2R z)] /\ values lm (c - a * b)%num [rnd (B2R z - rnd p); rnd (B2R z - p)].
Proof.
  intros X Y Z B C a b c p. split; [exact (form_l lm x y z X Y Z B C)|]. split; [exact (form_r lm x y z X Y Z B C)|].
  split; [exact (form_s lm x y z X Y Z B C)|exact (form_n lm x y z X Y Z B C)].
Qed.
Lemma dots (lm : libm) (a b : Vector3 f32) : allV fin a -> allV fin b ->
  let p0 := B2R (v0 a) * B2R (v0 b) in let p1 := B2R (v1 a) * B2R (v1 b) in let p2 := B2R (v2 a) * B2R (v2 b) in
  Rabs p0 <= bpow radix2 120 -> Rabs p1 <= bpow radix2 120 -> Rabs p2 <= bpow radix2 120 ->
  let l := flat_map (fun s => [rnd (s + rnd p2); rnd (s + p2)]) [rnd (rnd p0 + rnd p1); rnd (p0 + rnd p1); rnd (rnd p0 + p1)] in
  values lm (V_dot (EN lm) (inV lm a) (inV lm b)) l /\ values lm (T_dot (EN lm) (inV lm a) (inV lm b)) l.
Proof.
  destruct a as [a0 a1 a2], b as [b0 b1 b2]. intros (A0 & A1 & A2) (B0 & B1 & B2) p0 p1 p2 C0 C1 C2 l.
  pose proof (dot_values lm a0 a1 a2 b0 b1 b2 A0 A1 A2 B0 B1 B2 C0 C1 C2) as D. split; exact D.
Qed.
