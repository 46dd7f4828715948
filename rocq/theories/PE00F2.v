(** * CIEDE2000 in binary32, assembled. *)
From Coq Require Import ZArith Reals Lra Lia Psatz.
From Flocq Require Import Core BinarySingleNaN.
From Verif Require Import Num NumF MVec MTri MDelta F32 PLibm PNearF PHsvF PHsvA PSpecF PIvF PE00F.
Local Open Scope R_scope.

Lemma add_comm (lm : libm) (x y : F (FN lm)) : fadd x y = fadd y x.
Proof.
  cbn [fadd FN F]. destruct x as [s|s| |s m e B], y as [s'|s'| |s' m' e' B']; cbn [Bplus]; try reflexivity; try (destruct s, s'; reflexivity).
  rewrite (Z.min_comm e' e). unfold Fplus_naive. rewrite (Z.add_comm (SpecFloat.cond_Zopp s _)). reflexivity.
Qed.
Section E.
Variable lm : libm.
Hypothesis El : elementary lm.
Notation N := (FN lm).
Notation l_ := (@flit (FN lm)).
Ltac prod := intros r s [? ?] [? ?]; split; nra.
Ltac slv := first [safe_tac | lra].

Definition chr (a b : f32) : f32 := @fsqrt N (@fadd N (@fmul N a a) (@fmul N b b)).
Definition mid2 (x y : f32) : f32 := @fdiv N (@fadd N x y) (l_ 2%dec).
Definition Gf (p q : Vector3 f32) : f32 := e00_G N (mid2 (chr (v1 p) (v2 p)) (chr (v1 q) (v2 q))).
Definition adf (g : f32) (p : Vector3 f32) : f32 := @fmul N (v1 p) (@fadd N (l_ 1%dec) g).
Definition Cdf (g : f32) (p : Vector3 f32) : f32 := chr (adf g p) (v2 p).
Definition huef (g : f32) (p : Vector3 f32) : f32 := e00_hue N (v2 p) (adf g p).
Definition Scf (g : f32) (p q : Vector3 f32) : f32 := @fadd N (l_ 1%dec) (@fmul N (l_ 0.045%dec) (mid2 (Cdf g p) (Cdf g q))).
Definition Shf (g : f32) (p q : Vector3 f32) : f32 :=
  @fadd N (l_ 1%dec) (@fmul N (@fmul N (l_ 0.015%dec) (mid2 (Cdf g p) (Cdf g q))) (e00_T N (e00_HdBar N (huef g p) (huef g q)))).
Definition dLf (kl : f32) (p q : Vector3 f32) : f32 := @fdiv N (@fsub N (v0 q) (v0 p)) (@fmul N kl (e00_Sl N (mid2 (v0 p) (v0 q)))).
Definition dCf (kc g : f32) (p q : Vector3 f32) : f32 := @fdiv N (@fsub N (Cdf g q) (Cdf g p)) (@fmul N kc (Scf g p q)).
Definition angf (g : f32) (p q : Vector3 f32) : f32 :=
  @fdiv N (@fmul N (@fpi N) (e00_deltah N (huef g p) (huef g q))) (@fmul N (l_ 180%dec) (l_ 2%dec)).
Definition dhf (g : f32) (p q : Vector3 f32) : f32 := @fmul N (@fmul N (l_ 2%dec) (@fsqrt N (@fmul N (Cdf g p) (Cdf g q)))) (@fsin N (angf g p q)).
Definition dHf (kh g : f32) (p q : Vector3 f32) : f32 := @fdiv N (dhf g p q) (@fmul N kh (Shf g p q)).
Definition Rtf (g : f32) (p q : Vector3 f32) : f32 := e00_Rt N (e00_HdBar N (huef g p) (huef g q)) (mid2 (Cdf g p) (Cdf g q)).
Lemma E00_parts (p q : Vector3 f32) kl kc kh :
  Delta_E00 N p q kl kc kh = let g := Gf p q in @fsqrt N (rad lm (dLf kl p q) (dCf kc g p q) (dHf kh g p q) (Rtf g p q)).
Proof.
  destruct p as [L1 a1 b1], q as [L2 a2 b2]. unfold Delta_E00, rad, dLf, dCf, dHf, dhf, angf, Rtf, Shf, Scf, huef, Cdf, adf, Gf, mid2, chr. cbv zeta. cbn [vref v0 v1 v2]. reflexivity.
Qed.

Definition lab_ok (p : Vector3 f32) : Prop := iv (v0 p) (-1024) 1024 /\ iv (v1 p) (-1024) 1024 /\ iv (v2 p) (-1024) 1024.
Lemma iv_sq x a c : iv x (- a) a -> 0 <= a -> c = a * a -> safe c -> iv (@fmul N x x) 0 c.
Proof.
  intros [Fx X] A C S. assert (I : iv x (B2R x) (B2R x)) by (split; [exact Fx|lra]). eapply (iv_mul lm _ _ _ _ _ _ _ _ I I); try assumption; [safe_tac|].
  intros r s ? ?. replace s with r by lra. replace r with (B2R x) by lra. rewrite C. nra.
Qed.
Lemma iv_mid2 x y a b : iv x a b -> iv y a b -> safe (2 * a) -> safe (2 * b) -> safe a -> safe b -> iv (mid2 x y) a b.
Proof.
  intros X Y S1 S2 S3 S4. assert (L2 : iv (l_ 2%dec) 2 2) by litv.
  assert (A : iv (@fadd N x y) (2 * a) (2 * b)) by (eapply (iv_add lm _ _ _ _ _ _ _ _ X Y); try assumption; lra).
  eapply (iv_div lm _ _ _ _ _ _ _ _ A L2); try assumption; [lra|]. intros r s ? ?. replace s with 2 by lra. lra.
Qed.
Lemma iv_chr a b : iv a (-2048) 2048 -> iv b (-2048) 2048 -> iv (chr a b) 0 4096.
Proof.
  intros A B. unfold chr. apply (fun H => iv_sq a 2048 4194304 H) in A; [|lra|lra|safe_tac]. apply (fun H => iv_sq b 2048 4194304 H) in B; [|lra|lra|safe_tac].
  assert (S : iv (@fadd N (@fmul N a a) (@fmul N b b)) 0 8388608) by (eapply (iv_add lm _ _ _ _ _ _ _ _ A B); slv).
  eapply (iv_sqrt lm _ _ _ _ _ S); slv.
Qed.
Lemma iv_chr_lo a b : lab_ok (V3 a a b) -> iv (chr a b) 0 2048.
Proof.
  intros (A & _ & B). cbn [v0 v1 v2] in *. unfold chr. apply (fun H => iv_sq a 1024 1048576 H) in A; [|lra|lra|safe_tac]. apply (fun H => iv_sq b 1024 1048576 H) in B; [|lra|lra|safe_tac].
  assert (S : iv (@fadd N (@fmul N a a) (@fmul N b b)) 0 2097152) by (eapply (iv_add lm _ _ _ _ _ _ _ _ A B); slv).
  eapply (iv_sqrt lm _ _ _ _ _ S); slv.
Qed.
Lemma iv_Gf p q : lab_ok p -> lab_ok q -> iv (Gf p q) 0 1.
Proof.
  intros (_ & A1 & B1) (_ & A2 & B2). apply (iv_G lm El). change (bpow radix2 12) with 4096. apply iv_mid2; try safe_tac.
  - apply iv_chr; eapply iv_le; try eassumption; lra.
  - apply iv_chr; eapply iv_le; try eassumption; lra.
  - replace (2 * 0) with 0 by ring. safe_tac.
  - replace (2 * 4096) with 8192 by ring. safe_tac.
Qed.
Section G.
Variable g : f32.
Hypothesis Hg : iv g 0 1.
Lemma iv_adf p : lab_ok p -> iv (adf g p) (-2048) 2048.
Proof.
  intros (_ & A & _). unfold adf. assert (L1 : iv (l_ 1%dec) 1 1) by litv.
  assert (S : iv (@fadd N (l_ 1%dec) g) 1 2) by (eapply (iv_add lm _ _ _ _ _ _ _ _ L1 Hg); slv).
  eapply (iv_mul lm _ _ _ _ _ _ _ _ A S); try slv. prod.
Qed.
Lemma iv_Cdf p : lab_ok p -> iv (Cdf g p) 0 4096.
Proof. intros H. pose proof (iv_adf p H). destruct H as (_ & _ & B). apply iv_chr; [assumption|]. eapply iv_le; [exact B|lra|lra]. Qed.
Lemma iv_huef p : lab_ok p -> iv (huef g p) 0 360.
Proof. intros H. destruct (iv_adf p H) as [F _]. destruct H as (_ & _ & [B _]). now apply iv_hue. Qed.
Lemma iv_hbf p q : lab_ok p -> lab_ok q -> iv (e00_HdBar N (huef g p) (huef g q)) 0 540.
Proof. intros. apply iv_hbar; now apply iv_huef. Qed.
Lemma iv_cbf p q : lab_ok p -> lab_ok q -> iv (mid2 (Cdf g p) (Cdf g q)) 0 4096.
Proof.
  intros. apply iv_mid2; try safe_tac; try now apply iv_Cdf.
  - replace (2 * 0) with 0 by ring. safe_tac.
  - replace (2 * 4096) with 8192 by ring. safe_tac.
Qed.
Lemma iv_Scf p q : lab_ok p -> lab_ok q -> iv (Scf g p q) 1 512.
Proof.
  intros P Q. pose proof (iv_cbf p q P Q) as C. unfold Scf. assert (L1 : iv (l_ 1%dec) 1 1) by litv. assert (K : iv (l_ 0.045%dec) 0.044 0.046) by litv.
  assert (M : iv (@fmul N (l_ 0.045%dec) (mid2 (Cdf g p) (Cdf g q))) 0 256) by (eapply (iv_mul lm _ _ _ _ _ _ _ _ K C); try slv; prod).
  eapply (iv_add lm _ _ _ _ _ _ _ _ L1 M); slv.
Qed.
Lemma iv_Shf p q : lab_ok p -> lab_ok q -> iv (Shf g p q) 1 512.
Proof.
  intros P Q. pose proof (iv_cbf p q P Q) as C. pose proof (iv_T lm El _ (iv_hbf p q P Q)) as T. unfold Shf. assert (L1 : iv (l_ 1%dec) 1 1) by litv. assert (K : iv (l_ 0.015%dec) 0.014 0.016) by litv.
  assert (M : iv (@fmul N (l_ 0.015%dec) (mid2 (Cdf g p) (Cdf g q))) 0 128) by (eapply (iv_mul lm _ _ _ _ _ _ _ _ K C); try slv; prod).
  assert (M2 : iv (@fmul N (@fmul N (l_ 0.015%dec) (mid2 (Cdf g p) (Cdf g q))) (e00_T N (e00_HdBar N (huef g p) (huef g q)))) 0 256) by (eapply (iv_mul lm _ _ _ _ _ _ _ _ M T); try slv; prod).
  eapply (iv_add lm _ _ _ _ _ _ _ _ L1 M2); slv.
Qed.
(** quotient of a difference by a weight *)
Definition w_ok (k : f32) : Prop := iv k (1 / 1024) 1024.
Lemma iv_wt k s b c : w_ok k -> iv s 1 b -> c = 1024 * b -> 0 < b -> safe c -> iv (@fmul N k s) (1 / 1024) c.
Proof. intros K S C B Sc. eapply (iv_mul lm _ _ _ _ _ _ _ _ K S); try safe_tac; try assumption. intros r s' [? ?] [? ?]. split; nra. Qed.
Lemma quot x y b c : iv x (- b) b -> iv y (1 / 1024) c -> 0 <= b -> safe (1024 * b) ->
  fin (@fdiv N x y) /\ B2R (@fdiv N x y) = rnd (B2R x / B2R y) /\ Rabs (B2R (@fdiv N x y)) <= 1024 * b.
Proof.
  intros [Fx X] [Fy Y] B [S1 S2]. assert (PY : 0 < B2R y) by lra.
  assert (D : Rabs (B2R x / B2R y) <= 1024 * b). { apply Rabs_le. apply div_between; [exact PY|nra|nra]. }
  destruct (div_ok lm x y Fx (Rgt_not_eq _ _ PY)) as [F E]. { eapply Rle_trans; [exact D|]. rewrite Rabs_pos_eq in S2 by lra. exact S2. }
  split; [exact F|]. split; [exact E|]. rewrite E. now apply rnd_abs_le.
Qed.
Lemma quot_anti x x' y b c : iv x (- b) b -> iv x' (- b) b -> B2R x' = - B2R x -> iv y (1 / 1024) c -> 0 <= b -> safe (1024 * b) ->
  B2R (@fdiv N x' y) = - B2R (@fdiv N x y).
Proof.
  intros X X' E Y B S. destruct (quot x y b c X Y B S) as (_ & E1 & _). destruct (quot x' y b c X' Y B S) as (_ & E2 & _).
  rewrite E1, E2, E. replace (- B2R x / B2R y) with (- (B2R x / B2R y)) by (unfold Rdiv; ring). apply rnd_opp.
Qed.
Lemma sub_anti x y b : iv x (- b) b -> iv y (- b) b -> 0 <= b -> safe (2 * b) -> safe (- (2 * b)) ->
  iv (@fsub N x y) (- (2 * b)) (2 * b) /\ B2R (@fsub N y x) = - B2R (@fsub N x y).
Proof.
  intros X Y B S1 S2. split; [eapply (iv_sub lm _ _ _ _ _ _ _ _ X Y); try assumption; lra|].
  destruct X as [Fx X], Y as [Fy Y]. 
  assert (K : forall r s : R, - b <= r <= b -> - b <= s <= b -> Rabs (r - s) <= bpow radix2 127).
  { intros r s ? ?. destruct S1 as [_ S1]. rewrite Rabs_pos_eq in S1 by lra. apply Rabs_le. lra. }
  destruct (sub_ok lm x y Fx Fy (K _ _ X Y)) as [_ ->]. destruct (sub_ok lm y x Fy Fx (K _ _ Y X)) as [_ ->].
  replace (B2R y - B2R x) with (- (B2R x - B2R y)) by ring. apply rnd_opp.
Qed.
Lemma sub_iv_pos x y b : iv x 0 b -> iv y 0 b -> safe b -> safe (- b) -> 0 <= b ->
  iv (@fsub N x y) (- b) b /\ B2R (@fsub N y x) = - B2R (@fsub N x y).
Proof.
  intros X Y S1 S2 B. split; [eapply (iv_sub lm _ _ _ _ _ _ _ _ X Y); try assumption; lra|].
  destruct X as [Fx X], Y as [Fy Y]. 
  assert (K : forall r s : R, 0 <= r <= b -> 0 <= s <= b -> Rabs (r - s) <= bpow radix2 127).
  { intros r s ? ?. destruct S1 as [_ S1]. rewrite Rabs_pos_eq in S1 by lra. apply Rabs_le. lra. }
  destruct (sub_ok lm x y Fx Fy (K _ _ X Y)) as [_ ->]. destruct (sub_ok lm y x Fy Fx (K _ _ Y X)) as [_ ->].
  replace (B2R y - B2R x) with (- (B2R x - B2R y)) by ring. apply rnd_opp.
Qed.
Lemma mid2_comm x y : mid2 x y = mid2 y x.
Proof. unfold mid2. now rewrite (add_comm lm x y). Qed.
Lemma iv_Slm p q : lab_ok p -> lab_ok q -> iv (e00_Sl N (mid2 (v0 p) (v0 q))) 1 65536.
Proof.
  intros (P & _) (Q & _). apply iv_Sl. apply iv_mid2; try assumption; try safe_tac.
  - replace (2 * -1024) with (-2048) by ring. safe_tac.
  - replace (2 * 1024) with 2048 by ring. safe_tac.
Qed.
Lemma dLf_ok kl p q : w_ok kl -> lab_ok p -> lab_ok q ->
  fin (dLf kl p q) /\ Rabs (B2R (dLf kl p q)) <= 2097152 /\ B2R (dLf kl q p) = - B2R (dLf kl p q) /\ (p = q -> B2R (dLf kl p q) = 0).
Proof.
  intros K P Q. pose proof (iv_Slm p q P Q) as S. pose proof (iv_wt kl _ 65536 67108864 K S ltac:(lra) ltac:(lra) ltac:(apply (safe_b 26); lia)) as W.
  destruct P as (P & _), Q as (Q & _).
  destruct (sub_anti (v0 q) (v0 p) 1024 Q P ltac:(lra)) as [D A]; [replace (2 * 1024) with 2048 by ring; safe_tac|replace (- (2 * 1024)) with (-2048) by ring; safe_tac|].
  destruct (sub_anti (v0 p) (v0 q) 1024 P Q ltac:(lra)) as [D' _]; [replace (2 * 1024) with 2048 by ring; safe_tac|replace (- (2 * 1024)) with (-2048) by ring; safe_tac|].
  assert (SS : safe (1024 * (2 * 1024))) by (replace (1024 * (2 * 1024)) with 2097152 by ring; safe_tac).
  destruct (quot _ _ (2 * 1024) _ D W ltac:(lra) SS) as (F & E & B). split; [exact F|]. split; [unfold dLf; lra|]. split.
  - unfold dLf. rewrite (mid2_comm (v0 q) (v0 p)). eapply quot_anti; try eassumption. lra.
  - intros ->. unfold dLf in *. rewrite E. replace (B2R (@fsub N (v0 q) (v0 q))) with 0 by lra. unfold Rdiv. rewrite Rmult_0_l. apply rnd_0.
Qed.
Lemma Scf_comm p q : Scf g q p = Scf g p q.
Proof. unfold Scf. now rewrite mid2_comm. Qed.
Lemma hbar_comm h1 h2 : iv h1 0 360 -> iv h2 0 360 -> e00_HdBar N h1 h2 = e00_HdBar N h2 h1.
Proof.
  intros H1 H2. unfold e00_HdBar. rewrite (add_comm lm h1 h2). 
  destruct (sub_iv_pos h1 h2 360 H1 H2 ltac:(safe_tac) ltac:(safe_tac) ltac:(lra)) as [[F1 _] E]. destruct (sub_iv_pos h2 h1 360 H2 H1 ltac:(safe_tac) ltac:(safe_tac) ltac:(lra)) as [[F2 _] _].
  destruct (abs_ok lm _ F1) as [G1 V1]. destruct (abs_ok lm _ F2) as [G2 V2]. assert (L : fin (l_ 180%dec)) by reflexivity.
  rewrite !ltb_ok by assumption. rewrite V1, V2, E, Rabs_Ropp. reflexivity.
Qed.
Lemma deltah_ok h1 h2 : iv h1 0 360 -> iv h2 0 360 ->
  iv (e00_deltah N h1 h2) (-720) 720 /\ B2R (e00_deltah N h2 h1) = - B2R (e00_deltah N h1 h2) /\ (h1 = h2 -> B2R (e00_deltah N h1 h2) = 0).
Proof.
  intros H1 H2. destruct (sub_iv_pos h2 h1 360 H2 H1 ltac:(safe_tac) ltac:(safe_tac) ltac:(lra)) as [I E]. destruct (sub_iv_pos h1 h2 360 H1 H2 ltac:(safe_tac) ltac:(safe_tac) ltac:(lra)) as [I' _].
  assert (L3 : iv (l_ 360%dec) 360 360) by litv. assert (L : fin (l_ 180%dec) /\ B2R (l_ 180%dec) = 180) by f32_val. destruct L as [FL VL].
  assert (P : iv (@fadd N (@fsub N h2 h1) (l_ 360%dec)) (-720) 720) by (eapply (iv_add lm _ _ _ _ _ _ _ _ I L3); slv).
  assert (Q : iv (@fsub N (@fsub N h2 h1) (l_ 360%dec)) (-720) 720) by (eapply (iv_sub lm _ _ _ _ _ _ _ _ I L3); slv).
  assert (I2 : iv (@fsub N h2 h1) (-720) 720) by (eapply iv_le; [exact I|lra|lra]).
  split; [unfold e00_deltah; destruct (@fleb N _ _); [assumption|destruct (@fleb N _ _); assumption]|].
  destruct I as [F1 B1], I' as [F2 B2]. pose proof (abs_ok lm _ F1) as [G1 V1]. pose proof (abs_ok lm _ F2) as [G2 V2].
  destruct H1 as [Fh1 Bh1], H2 as [Fh2 Bh2]. destruct L3 as [F3 B3].
  assert (K : forall x y, -360 <= x <= 360 -> -360 <= y <= 360 -> Rabs (x + y) <= bpow radix2 127 /\ Rabs (x - y) <= bpow radix2 127).
  { intros x y ? ?. assert (720 <= bpow radix2 127) by (apply Rle_trans with (bpow radix2 10); [change (bpow radix2 10) with 1024; lra|apply bpow_le; lia]). split; apply Rabs_le; lra. }
  assert (Z1 : B2R (l_ 360%dec) = 360) by lra.
  assert (SV : B2R (@fsub N h2 h1) = rnd (B2R h2 - B2R h1)). { apply sub_ok; try assumption. apply K; lra. }
  split.
  - unfold e00_deltah. rewrite !(leb_ok lm) by assumption. rewrite V1, V2, VL, E, Rabs_Ropp.
    destruct (Rle_bool_spec (Rabs (B2R (@fsub N h2 h1))) 180) as [L|L]; [exact E|].
    destruct (Rle_bool_spec (B2R h2) (B2R h1)) as [M|M], (Rle_bool_spec (B2R h1) (B2R h2)) as [M'|M']; try lra.
    + exfalso. rewrite SV in L. replace (B2R h2 - B2R h1) with 0 in L by lra. rewrite rnd_0, Rabs_R0 in L. lra.
    + destruct (sub_ok lm (@fsub N h1 h2) (l_ 360%dec) F2 F3) as [_ ->]; [apply K; lra|]. destruct (add_ok lm (@fsub N h2 h1) (l_ 360%dec) F1 F3) as [_ ->]; [apply K; lra|].
      rewrite E. replace (- B2R (@fsub N h2 h1) - B2R (l_ 360%dec)) with (- (B2R (@fsub N h2 h1) + B2R (l_ 360%dec))) by ring. apply rnd_opp.
    + destruct (add_ok lm (@fsub N h1 h2) (l_ 360%dec) F2 F3) as [_ ->]; [apply K; lra|]. destruct (sub_ok lm (@fsub N h2 h1) (l_ 360%dec) F1 F3) as [_ ->]; [apply K; lra|].
      rewrite E. replace (- B2R (@fsub N h2 h1) + B2R (l_ 360%dec)) with (- (B2R (@fsub N h2 h1) - B2R (l_ 360%dec))) by ring. apply rnd_opp.
  - intros EQ. subst h2. unfold e00_deltah. rewrite (leb_ok lm (@ffabs N _)) by assumption. rewrite V1, VL, SV. replace (B2R h1 - B2R h1) with 0 by lra. rewrite rnd_0, Rabs_R0.
    rewrite Rle_bool_true by lra. rewrite SV. replace (B2R h1 - B2R h1) with 0 by lra. apply rnd_0.
Qed.
(** two floats, one of them at least 16, differ by nothing or by 2^-20 at least *)
Lemma gap_lt x y : fmt x -> fmt y -> 0 <= x -> x < y -> 16 <= y -> bpow radix2 (-20) <= y - x.
Proof.
  intros Fx Fy X L Y. assert (T : bpow radix2 (-20) <= 1) by (change 1 with (bpow radix2 0); apply bpow_le; lia).
  destruct (Rle_dec 8 x) as [G|G]; [|lra]. pose proof (succ_gap 3 x ltac:(lia) Fx) as S. change (bpow radix2 3) with 8 in S. specialize (S G).
  change (3 - 23)%Z with (-20)%Z in S. pose proof (succ_le_lt radix2 fe x y Fx Fy L). lra.
Qed.
Lemma gap x y : fmt x -> fmt y -> 0 <= x -> 0 <= y -> 16 <= x \/ 16 <= y -> x = y \/ bpow radix2 (-20) <= Rabs (y - x).
Proof.
  intros Fx Fy X Y H. destruct (Rtotal_order x y) as [L|[L|L]]; [right|now left|right].
  - rewrite Rabs_pos_eq by lra. apply gap_lt; try assumption. destruct H; lra.
  - rewrite Rabs_minus_sym, Rabs_pos_eq by lra. apply gap_lt; try assumption. destruct H; lra.
Qed.
Lemma mid2_le16 x y : iv x 0 16 -> iv y 0 16 -> iv (mid2 x y) 0 16.
Proof.
  intros X Y. apply iv_mid2; try assumption; try safe_tac.
  - replace (2 * 0) with 0 by ring. safe_tac.
  - replace (2 * 16) with 32 by ring. safe_tac.
Qed.
Lemma dCf_ok kc p q : w_ok kc -> lab_ok p -> lab_ok q ->
  fin (dCf kc g p q) /\ Rabs (B2R (dCf kc g p q)) <= 4194304 /\ B2R (dCf kc g q p) = - B2R (dCf kc g p q) /\ (p = q -> B2R (dCf kc g p q) = 0) /\
  (iv (mid2 (Cdf g p) (Cdf g q)) 0 16 \/ B2R (dCf kc g p q) = 0 \/ bpow radix2 (-39) <= Rabs (B2R (dCf kc g p q))).
Proof.
  intros K P Q. pose proof (iv_Scf p q P Q) as S. pose proof (iv_wt kc _ 512 524288 K S ltac:(lra) ltac:(lra) ltac:(safe_tac)) as W.
  pose proof (iv_Cdf p P) as CP. pose proof (iv_Cdf q Q) as CQ.
  destruct (sub_iv_pos (Cdf g q) (Cdf g p) 4096 CQ CP ltac:(safe_tac) ltac:(safe_tac) ltac:(lra)) as [D A].
  destruct (sub_iv_pos (Cdf g p) (Cdf g q) 4096 CP CQ ltac:(safe_tac) ltac:(safe_tac) ltac:(lra)) as [D' _].
  assert (SS : safe (1024 * 4096)) by (replace (1024 * 4096) with 4194304 by ring; safe_tac).
  destruct (quot _ _ 4096 _ D W ltac:(lra) SS) as (F & E & B). split; [exact F|]. split; [unfold dCf; lra|]. split; [|split].
  - unfold dCf. rewrite (Scf_comm p q). eapply quot_anti; try eassumption. lra.
  - intros ->. unfold dCf in *. rewrite E. replace (B2R (@fsub N (Cdf g q) (Cdf g q))) with 0 by lra. unfold Rdiv. rewrite Rmult_0_l. apply rnd_0.
  - destruct CP as [FP BP], CQ as [FQ BQ]. 
    destruct (Rle_dec 16 (B2R (Cdf g p))) as [H|H]; [|destruct (Rle_dec 16 (B2R (Cdf g q))) as [H'|H']].
    3:{ left. apply mid2_le16; split; try assumption; lra. }
    all: right.
    all: assert (SV : B2R (@fsub N (Cdf g q) (Cdf g p)) = rnd (B2R (Cdf g q) - B2R (Cdf g p)))
        by (apply sub_ok; try assumption; apply Rle_trans with (bpow radix2 12); [change (bpow radix2 12) with 4096; apply Rabs_le; lra|apply bpow_le; lia]).
    all: destruct (gap (B2R (Cdf g p)) (B2R (Cdf g q)) (fmt_B2R _) (fmt_B2R _) ltac:(lra) ltac:(lra) ltac:(first [left; lra|right; lra])) as [Z|Z];
        [left; unfold dCf; rewrite E, SV, Z; replace (B2R (Cdf g q) - B2R (Cdf g q)) with 0 by ring; rewrite rnd_0; unfold Rdiv; rewrite Rmult_0_l; apply rnd_0|right].
    all: unfold dCf; rewrite E, SV, <- round_NE_abs by typeclasses eauto; unfold Rdiv; rewrite Rabs_mult, <- round_NE_abs by typeclasses eauto;
      apply rnd_ge_fmt; [apply fmt_bpow; lia|]; destruct W as [_ [W0 W1]]; rewrite (Rabs_pos_eq (/ _)) by (left; apply Rinv_0_lt_compat; lra);
      replace (bpow radix2 (-39)) with (bpow radix2 (-20) * / 524288) by (change (/ 524288) with (bpow radix2 (-19)); rewrite <- bpow_plus; reflexivity);
      (apply Rmult_le_compat; [apply bpow_ge_0|lra|apply rnd_ge_fmt; [apply fmt_bpow; lia|exact Z]|apply Rinv_le_contravar; lra]).
Qed.
Lemma dhf_ok p q : lab_ok p -> lab_ok q ->
  iv (dhf g p q) (-16384) 16384 /\ B2R (dhf g q p) = - B2R (dhf g p q) /\ (p = q -> B2R (dhf g p q) = 0).
Proof.
  intros P Q. pose proof (iv_Cdf p P) as CP. pose proof (iv_Cdf q Q) as CQ. pose proof (iv_huef p P) as HP. pose proof (iv_huef q Q) as HQ.
  destruct (deltah_ok _ _ HP HQ) as (DI & DA & DZ). destruct (deltah_ok _ _ HQ HP) as (DI' & _ & _).
  assert (L2 : iv (l_ 2%dec) 2 2) by litv. assert (L180 : iv (l_ 180%dec) 180 180) by litv.
  assert (M360 : iv (@fmul N (l_ 180%dec) (l_ 2%dec)) 360 360) by (eapply (iv_mul lm _ _ _ _ _ _ _ _ L180 L2); try slv; prod).
  assert (AN : forall d, iv d (-720) 720 -> let a := @fdiv N (@fmul N (@fpi N) d) (@fmul N (l_ 180%dec) (l_ 2%dec)) in
     iv a (-8) 8 /\ B2R a = rnd (rnd (B2R (@fpi N) * B2R d) / 360)).
  { intros d Hd a. assert (M : iv (@fmul N (@fpi N) d) (-2400) 2400) by (eapply (iv_mul lm _ _ _ _ _ _ _ _ (iv_pi lm) Hd); try slv; prod).
    assert (R : iv a (-8) 8) by (eapply (iv_div lm _ _ _ _ _ _ _ _ M M360); try slv; prod). split; [exact R|].
    destruct Hd as [Fd Bd]. destruct (iv_pi lm) as [Fp Bp]. destruct M as [Fm Bm]. destruct M360 as [F36 B36]. unfold a.
    assert (B127 : 4096 <= bpow radix2 127) by (change 4096 with (bpow radix2 12); apply bpow_le; lia).
    destruct (div_ok lm (@fmul N (@fpi N) d) (@fmul N (l_ 180%dec) (l_ 2%dec)) Fm) as [_ ->]; [apply Rgt_not_eq; lra| |].
    - apply Rle_trans with 4096; [|exact B127]. apply Rabs_le. apply div_between; lra.
    - replace (B2R (@fmul N (l_ 180%dec) (l_ 2%dec))) with 360 by lra. do 2 f_equal. apply mul_ok; try assumption. apply Rle_trans with 4096; [|exact B127]. apply Rabs_le; split; nra. }
  destruct (AN _ DI) as [AI AV]. destruct (AN _ DI') as [AI' AV']. fold (angf g p q) in AI, AV. fold (angf g q p) in AI', AV'.
  assert (AA : B2R (angf g q p) = - B2R (angf g p q)).
  { rewrite AV, AV', DA. rewrite Ropp_mult_distr_r_reverse, rnd_opp. unfold Rdiv. rewrite Ropp_mult_distr_l_reverse. apply rnd_opp. }
  destruct AI as [FA BA], AI' as [FA' BA'].
  destruct (el_sin lm El _ FA ltac:(apply Rabs_le; lra)) as [FS BS]. destruct (el_sin lm El _ FA' ltac:(apply Rabs_le; lra)) as [FS' BS'].
  pose proof (el_sin_odd lm El _ _ FA FA' ltac:(apply Rabs_le; lra) AA) as OD.
  assert (SI : iv (@fsin N (angf g p q)) (-2) 2). { split; [exact FS|]. apply Rabs_le_inv in BS. pose proof (SIN_bound (B2R (angf g p q))). change (@fsin N) with (lm_sinf lm). lra. }
  assert (M : iv (@fmul N (Cdf g p) (Cdf g q)) 0 16777216) by (eapply (iv_mul lm _ _ _ _ _ _ _ _ CP CQ); try slv; prod).
  assert (R : iv (@fsqrt N (@fmul N (Cdf g p) (Cdf g q))) 0 4096) by (eapply (iv_sqrt lm _ _ _ _ _ M); slv).
  assert (T : iv (@fmul N (l_ 2%dec) (@fsqrt N (@fmul N (Cdf g p) (Cdf g q)))) 0 8192) by (eapply (iv_mul lm _ _ _ _ _ _ _ _ L2 R); try slv; prod).
  assert (RES : iv (dhf g p q) (-16384) 16384) by (unfold dhf; eapply (iv_mul lm _ _ _ _ _ _ _ _ T SI); try slv; prod).
  split; [exact RES|]. destruct T as [FT BT]. destruct SI as [_ BSI]. unfold dhf. rewrite (mul_comm lm (Cdf g q) (Cdf g p)). set (t := @fmul N (l_ 2%dec) _) in *.
  change (@fsin N) with (lm_sinf lm) in *.
  assert (B127 : 16384 <= bpow radix2 127) by (change 16384 with (bpow radix2 14); apply bpow_le; lia).
  destruct (mul_ok lm t (lm_sinf lm (angf g q p)) FT FS') as [_ ->]. { rewrite OD. apply Rle_trans with 16384; [|exact B127]. apply Rabs_le. split; nra. }
  assert (MV : B2R (@fmul N t (lm_sinf lm (angf g p q))) = rnd (B2R t * B2R (lm_sinf lm (angf g p q)))).
  { apply mul_ok; try assumption. apply Rle_trans with 16384; [|exact B127]. apply Rabs_le. split; nra. }
  rewrite MV. split.
  - rewrite OD. replace (B2R t * - B2R (lm_sinf lm (angf g p q))) with (- (B2R t * B2R (lm_sinf lm (angf g p q)))) by ring. apply rnd_opp.
  - intros EQ. subst q. replace (B2R (lm_sinf lm (angf g p p))) with 0 by lra. rewrite Rmult_0_r. apply rnd_0.
Qed.
Lemma Shf_comm p q : lab_ok p -> lab_ok q -> Shf g q p = Shf g p q.
Proof. intros. unfold Shf. rewrite (mid2_comm (Cdf g q)), (hbar_comm (huef g q)); [reflexivity| |]; now apply iv_huef. Qed.
Lemma dHf_ok kh p q : w_ok kh -> lab_ok p -> lab_ok q ->
  fin (dHf kh g p q) /\ Rabs (B2R (dHf kh g p q)) <= 16777216 /\ B2R (dHf kh g q p) = - B2R (dHf kh g p q) /\ (p = q -> B2R (dHf kh g p q) = 0).
Proof.
  intros K P Q. pose proof (iv_Shf p q P Q) as S. pose proof (iv_wt kh _ 512 524288 K S ltac:(lra) ltac:(lra) ltac:(safe_tac)) as W.
  destruct (dhf_ok p q P Q) as (D & A & Z). destruct (dhf_ok q p Q P) as (D' & _ & _).
  assert (SS : safe (1024 * 16384)) by (replace (1024 * 16384) with 16777216 by ring; safe_tac).
  destruct (quot _ _ 16384 _ D W ltac:(lra) SS) as (F & E & B). split; [exact F|]. split; [unfold dHf; lra|]. split.
  - unfold dHf. rewrite (Shf_comm p q P Q). apply (quot_anti _ _ _ 16384 _ D D' A W); [lra|exact SS].
  - intros EQ. unfold dHf. rewrite E, (Z EQ). unfold Rdiv. rewrite Rmult_0_l. apply rnd_0.
Qed.
Lemma Rtf_ok p q : lab_ok p -> lab_ok q -> iv (Rtf g p q) (- (7 / 4)) (7 / 4) /\ (iv (mid2 (Cdf g p) (Cdf g q)) 0 16 -> Rabs (B2R (Rtf g p q)) <= 1).
Proof.
  intros P Q. pose proof (iv_hbf p q P Q) as H. pose proof (iv_cbf p q P Q) as C. split.
  - replace (7 / 4) with (7 / 4 * 1) by lra. apply (iv_Rt lm El _ _ 12 1); try assumption; try lia; try lra; try safe_tac.
    + replace (7 / 4 * 1) with (7 / 4) by ring. safe_tac.
    + replace (- (7 / 4 * 1)) with (-7 / 4) by lra. safe_tac.
    + replace (2 * 1) with 2 by ring. safe_tac.
  - intros C'. assert (I : iv (Rtf g p q) (- (7 / 4 * (1 / 2))) (7 / 4 * (1 / 2))).
    { apply (iv_Rt lm El _ _ 4 (1 / 8) (1 / 2)); try assumption; try lia; try lra; try safe_tac.
      + right. change (7 * 4 + 1)%Z with 29%Z. change (bpow radix2 29) with 536870912. lra.
      + replace (7 / 4 * (1 / 2)) with (7 / 8) by lra. safe_tac.
      + replace (- (7 / 4 * (1 / 2))) with (-7 / 8) by lra. safe_tac.
      + replace (2 * (1 / 2)) with 1 by lra. safe_tac. }
    destruct I as [_ I]. apply Rabs_le. lra.
Qed.
Lemma Rtf_comm p q : lab_ok p -> lab_ok q -> Rtf g q p = Rtf g p q.
Proof. intros. unfold Rtf. rewrite (mid2_comm (Cdf g q)), (hbar_comm (huef g q)); [reflexivity| |]; now apply iv_huef. Qed.
End G.
Lemma Gf_comm p q : Gf q p = Gf p q.
Proof. unfold Gf. now rewrite mid2_comm. Qed.
Lemma radv_even x a b r : radv (- x) (- a) (- b) r = radv x a b r.
Proof.
  unfold radv. replace (r * - a) with (- (r * a)) by ring. rewrite rnd_opp.
  replace (- x * - x) with (x * x) by ring. replace (- a * - a) with (a * a) by ring. replace (- b * - b) with (b * b) by ring.
  replace (- rnd (r * a) * - b) with (rnd (r * a) * b) by ring. reflexivity.
Qed.
Lemma E00_binary32 p q kl kc kh : w_ok kl -> w_ok kc -> w_ok kh -> lab_ok p -> lab_ok q ->
  let d := Delta_E00 N p q kl kc kh in let d' := Delta_E00 N q p kl kc kh in
  fin d /\ 0 <= B2R d /\ fin d' /\ B2R d' = B2R d /\ (p = q -> B2R d = 0).
Proof.
  intros KL KC KH P Q d d'. unfold d, d'. rewrite !E00_parts. cbv zeta. rewrite (Gf_comm p q). pose proof (iv_Gf p q P Q) as HG. set (g := Gf p q) in *.
  destruct (dLf_ok kl p q KL P Q) as (F1 & B1 & A1 & Z1). destruct (dLf_ok kl q p KL Q P) as (F1' & B1' & _ & _).
  destruct (dCf_ok g HG kc p q KC P Q) as (F2 & B2 & A2 & Z2 & C2). destruct (dCf_ok g HG kc q p KC Q P) as (F2' & B2' & _ & _ & _).
  destruct (dHf_ok g HG kh p q KH P Q) as (F3 & B3 & A3 & Z3). destruct (dHf_ok g HG kh q p KH Q P) as (F3' & B3' & _ & _).
  destruct (Rtf_ok g HG p q P Q) as ([F4 B4] & C4). rewrite (Rtf_comm g HG p q P Q).
  assert (T30 : 16777216 <= bpow radix2 30) by (change 16777216 with (bpow radix2 24); apply bpow_le; lia).
  assert (R4 : Rabs (B2R (Rtf g p q)) <= bpow radix2 1) by (change (bpow radix2 1) with 2; apply Rabs_le; lra).
  destruct (rad_val lm _ _ _ _ F1 F2 F3 F4 ltac:(lra) ltac:(lra) ltac:(lra) R4) as [FR VR].
  destruct (rad_val lm _ _ _ _ F1' F2' F3' F4 ltac:(lra) ltac:(lra) ltac:(lra) R4) as [FR' VR'].
  assert (NN : 0 <= radv (B2R (dLf kl p q)) (B2R (dCf kc g p q)) (B2R (dHf kh g p q)) (B2R (Rtf g p q))).
  { apply radv_nonneg; try apply fmt_B2R; [apply Rabs_le; lra|]. destruct C2 as [C2|[C2|C2]]; [left; now apply C4|right; now left|right; now right]. }
  rewrite A1, A2, A3, radv_even in VR'.
  destruct (sqrt_ok lm _ FR ltac:(rewrite VR; exact NN)) as [FS VS]. destruct (sqrt_ok lm _ FR' ltac:(rewrite VR'; exact NN)) as [FS' VS'].
  split; [exact FS|]. rewrite VS, VS', VR, VR'. split; [apply rnd_ge_fmt; [apply fmt_0|apply sqrt_pos]|]. split; [exact FS'|]. split; [reflexivity|].
  intros EQ. rewrite (Z1 EQ), (Z2 EQ), (Z3 EQ). unfold radv. rewrite !Rmult_0_r, !rnd_0, !Rplus_0_r, !rnd_0, sqrt_0. apply rnd_0.
Qed.
End E.
Lemma rnd_fun (f : R -> R) : (forall x, -1 <= f x <= 1) -> exists h : f32 -> f32, forall x, fin (h x) /\ B2R (h x) = rnd (f (B2R x)).
Proof.
  intros B. apply (choice1 (B754_zero false) (fun x z => fin z /\ B2R z = rnd (f (B2R x)))). intros x. apply f32_surj.
  - apply generic_format_round; typeclasses eauto.
  - apply rnd_lt_128. specialize (B (B2R x)). apply Rle_trans with (bpow radix2 0); [apply Rabs_le; exact B|apply bpow_le; lia].
Qed.
Lemma rnd_close z : -1 <= z <= 1 -> Rabs (rnd z - z) <= / 1048576.
Proof. intros H. pose proof (rnd_err_abs z) as E. pose proof u16 as U. pose proof eta16 as T. assert (Rabs z <= 1) by (apply Rabs_le; lra). rewrite U in *. pose proof (Rabs_pos z). nra. Qed.
Lemma elementary_exists : exists lm, elementary lm.
Proof.
  destruct (rnd_fun sin) as [sn Hs]; [intros; apply SIN_bound|]. destruct (rnd_fun cos) as [cs Hc]; [intros; apply COS_bound|].
  set (z1 := fun _ : f32 => (B754_zero false : f32)). set (z2 := fun _ _ : f32 => (B754_zero false : f32)).
  exists (mkLibm z2 z1 z1 z1 sn cs z2 z2 z1 (lm_pow no_libm) (lm_exp no_libm)).
  constructor; cbn [lm_powf lm_expf lm_sinf lm_cosf lm_atan2f lm_fmodf]; unfold z1, z2.
  - intros x y _ _ _ _ b _ Hb. split; [reflexivity|]. cbn [B2R]. pose proof (bpow_gt_0 radix2 (-126)). lra.
  - intros x _ _. split; [reflexivity|]. cbn [B2R]. lra.
  - intros x _ _. destruct (Hs x) as [F ->]. split; [exact F|]. apply rnd_close, SIN_bound.
  - intros x y _ _ _ E. destruct (Hs x) as [_ ->]. destruct (Hs y) as [_ ->]. rewrite E, sin_neg. apply rnd_opp.
  - intros x _ _. destruct (Hc x) as [F ->]. split; [exact F|]. apply rnd_close, COS_bound.
  - intros y x _ _. split; [reflexivity|]. cbn [B2R]. rewrite Rabs_R0. lra.
  - intros x y _ _ _ Y. split; [reflexivity|]. cbn [B2R]. lra.
Qed.
Lemma E00_f32_case : lab_ok (V3 (lit 24 128 p24 p24e 50%dec) (lit 24 128 p24 p24e 2.6772%dec) (lit 24 128 p24 p24e (-79.7751)%dec)) /\
  w_ok (lit 24 128 p24 p24e 1%dec).
Proof. split; [split; [|split]|]; unfold w_ok; cbn [v0 v1 v2]; litv. Qed.
