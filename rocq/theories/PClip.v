(** * Comparisons of arbitrary floats (NaN and infinities included); [clip],
    [positive], [hasNegative]. *)
From Coq Require Import ZArith Reals Lra Lia List Bool.
From Flocq Require Import Core BinarySingleNaN.
From Verif Require Import Num NumF MVec MTri F32 PVec PMatF.
Local Open Scope R_scope.

Section Cmp.
Context (lm : libm).
Notation N := (FN lm).

(** ** Order facts. *)
Lemma leb_cases (x y : f32) : @fleb N x y = true <->
  (fin x /\ fin y /\ B2R x <= B2R y) \/ (x = B754_infinity true /\ y <> B754_nan) \/
  (y = B754_infinity false /\ x <> B754_nan).
Proof.
  assert (Ff : fin x -> fin y -> @fleb N x y = true <-> B2R x <= B2R y).
  { intros Hx Hy. rewrite (leb_ok lm x y Hx Hy). case Rle_bool_spec; split; auto; try discriminate; lra. }
  destruct x as [sx|[]| |sx mx ex Ex], y as [sy|[]| |sy my ey Ey];
    try (split; [intros _; (left; fail) || (right; left; split; [reflexivity|discriminate]) || (right; right; split; [reflexivity|discriminate])
               |intros _; reflexivity]);
    try (split; [discriminate|intros [(A & B & _)|[(A & B)|(A & B)]]; first [discriminate A | discriminate B | congruence]]);
    (rewrite Ff by reflexivity; split; [intros H; left; repeat split; auto |
     intros [(A & B & C)|[(A & B)|(A & B)]]; [exact C | discriminate A | discriminate A]]).
Qed.
Lemma ltb_cases (x y : f32) : @fltb N x y = true <->
  (fin x /\ fin y /\ B2R x < B2R y) \/ (x = B754_infinity true /\ y <> B754_nan /\ y <> B754_infinity true) \/
  (y = B754_infinity false /\ x <> B754_nan /\ x <> B754_infinity false).
Proof.
  assert (Ff : fin x -> fin y -> @fltb N x y = true <-> B2R x < B2R y).
  { intros Hx Hy. rewrite (ltb_ok lm x y Hx Hy). case Rlt_bool_spec; split; auto; try discriminate; lra. }
  destruct x as [sx|[]| |sx mx ex Ex], y as [sy|[]| |sy my ey Ey];
    try (split; [intros _; (right; left; repeat split; discriminate) || (right; right; repeat split; discriminate)
               |intros _; reflexivity]);
    try (split; [discriminate|intros [(A & B & _)|[(A & B & C)|(A & B & C)]]; first [discriminate A | discriminate B | congruence]]);
    (rewrite Ff by reflexivity; split; [intros H; left; repeat split; auto |
     intros [(A & B & C)|[(A & B)|(A & B)]]; [exact C | discriminate A | discriminate A]]).
Qed.
Lemma eqb_cases (x y : f32) : @feqb N x y = true <->
  (fin x /\ fin y /\ B2R x = B2R y) \/ (x = y /\ exists s, x = B754_infinity s).
Proof.
  assert (Ff : fin x -> fin y -> @feqb N x y = true <-> B2R x = B2R y).
  { intros Hx Hy. rewrite (eqb_ok lm x y Hx Hy). case Req_bool_spec; split; auto; try discriminate; lra. }
  destruct x as [sx|[]| |sx mx ex Ex], y as [sy|[]| |sy my ey Ey];
    try (split; [intros _; right; split; [reflexivity|eexists; reflexivity] |intros _; reflexivity]);
    try (split; [discriminate|intros [(A & B & _)|(A & C & D)]; first [discriminate A | discriminate B | congruence]]);
    (rewrite Ff by reflexivity; split; [intros H; left; repeat split; auto |
     intros [(A & B & C)|(A & C & D)]; [exact C | discriminate D]]).
Qed.

Lemma lt_le (x y : f32) : @fltb N x y = true -> @fleb N x y = true.
Proof.
  rewrite ltb_cases, leb_cases. intros [(A & B & C)|[(A & B & C)|(A & B & C)]]; auto.
  left. repeat split; auto. lra.
Qed.
Lemma le_refl (x : f32) : x <> B754_nan -> @fleb N x x = true.
Proof.
  intros H. apply leb_cases. destruct x as [s|[]| |s m e E]; auto; [| congruence |].
  - left. repeat split. lra.
  - left. repeat split. lra.
Qed.
Lemma le_not_nan (x y : f32) : @fleb N x y = true -> x <> B754_nan /\ y <> B754_nan.
Proof.
  rewrite leb_cases. intros [(A & B & C)|[(A & B)|(A & B)]]; subst; split; auto; try discriminate;
  intros ->; discriminate.
Qed.
Lemma le_not_lt (x y : f32) : @fleb N x y = true -> @fltb N x y = false -> @feqb N x y = true.
Proof.
  intros H L. apply eqb_cases. apply not_true_iff_false in L. rewrite ltb_cases in L.
  apply leb_cases in H. destruct H as [(A & B & C)|[(A & B)|(A & B)]].
  - left. repeat split; auto. destruct (Rle_lt_or_eq_dec _ _ C); auto. exfalso. auto.
  - right. subst. destruct y as [s|[]| |s m e E]; eauto; exfalso; apply L; right; left; repeat split; discriminate || congruence.
  - right. subst. destruct x as [s|[]| |s m e E]; eauto; exfalso; apply L; right; right; repeat split; discriminate || congruence.
Qed.
Lemma eq_trans_f (x y z : f32) : @feqb N x y = true -> @feqb N y z = true -> @feqb N x z = true.
Proof.
  rewrite !eqb_cases. intros [(A & B & C)|(A & C & D)] [(A' & B' & C')|(A' & C' & D')]; subst; eauto.
  left. repeat split; auto. congruence.
Qed.
Lemma eq_sym_f (x y : f32) : @feqb N x y = true -> @feqb N y x = true.
Proof.
  rewrite !eqb_cases. intros [(A & B & C)|(A & C & D)]; [left; auto|right; subst; eauto].
Qed.
Lemma eq_refl_f (x : f32) : x <> B754_nan -> @feqb N x x = true.
Proof.
  intros H. apply eqb_cases. destruct x as [s|s| |s m e E]; try congruence; eauto; left; repeat split.
Qed.
Lemma nan_ltb_l (y : f32) : @fltb N B754_nan y = false. Proof. destruct y; reflexivity. Qed.
Lemma nan_ltb_r (y : f32) : @fltb N y B754_nan = false. Proof. destruct y as [[]|[]| |[]]; reflexivity. Qed.

(** ** [clip]. *)
Definition clip1 (x l h : f32) : f32 := maxi N (mini N x h) l.
Lemma clip_eq t l h : T_clip N t l h = V3 (clip1 (v0 t) l h) (clip1 (v1 t) l h) (clip1 (v2 t) l h).
Proof. reflexivity. Qed.
Lemma clip1_range x l h : @fleb N l h = true ->
  @fleb N l (clip1 x l h) = true /\ @fleb N (clip1 x l h) h = true.
Proof.
  intros H. destruct (le_not_nan _ _ H) as [Nl Nh]. unfold clip1, maxi, mini.
  destruct (@fltb N x h) eqn:E1.
  - destruct (@fltb N l x) eqn:E2; auto using lt_le, le_refl.
  - destruct (@fltb N l h) eqn:E2; auto using lt_le, le_refl.
Qed.
Lemma clip1_inside x l h : @fleb N l x = true -> @fleb N x h = true ->
  @feqb N (clip1 x l h) x = true.
Proof.
  intros Hl Hh. destruct (le_not_nan _ _ Hl) as [Nl Nx]. destruct (le_not_nan _ _ Hh) as [_ Nh].
  unfold clip1, maxi, mini. destruct (@fltb N x h) eqn:E1.
  - destruct (@fltb N l x) eqn:E2; auto using eq_refl_f, le_not_lt.
  - pose proof (le_not_lt _ _ Hh E1) as E. destruct (@fltb N l h) eqn:E2; auto using eq_sym_f.
    destruct (@fltb N l x) eqn:E3; [|auto using le_not_lt].
    exfalso. apply not_true_iff_false in E2. apply E2. rewrite ltb_cases in *. rewrite eqb_cases in E.
    destruct E as [(A & B & C)|(A & C & D)]; [|subst; exact E3].
    destruct E3 as [(P & Q & S)|[(P & Q & S)|(P & Q & S)]].
    + left. repeat split; auto. lra.
    + right. left. repeat split; auto. intros ->. discriminate.
    + subst x. discriminate.
Qed.
Lemma clip1_strictly_inside x l h : @fltb N l x = true -> @fltb N x h = true -> clip1 x l h = x.
Proof. intros Hl Hh. unfold clip1, maxi, mini. rewrite Hh, Hl. reflexivity. Qed.
Lemma clip1_idem x l h : @fleb N l h = true -> clip1 (clip1 x l h) l h = clip1 x l h.
Proof.
  intros H. unfold clip1, maxi, mini.
  assert (Ll : @fltb N l l = false).
  { apply not_true_iff_false. rewrite ltb_cases. intros [(A & B & C)|[(A & B & C)|(A & B & C)]]; [lra|congruence|congruence]. }
  assert (Hh : @fltb N h h = false).
  { apply not_true_iff_false. rewrite ltb_cases. intros [(A & B & C)|[(A & B & C)|(A & B & C)]]; [lra|congruence|congruence]. }
  destruct (@fltb N x h) eqn:E1.
  - destruct (@fltb N l x) eqn:E2.
    + rewrite E1, E2. reflexivity.
    + destruct (@fltb N l h) eqn:E3; [rewrite Ll|rewrite E3]; reflexivity.
  - destruct (@fltb N l h) eqn:E3.
    + rewrite Hh, E3. reflexivity.
    + rewrite E3, E3. reflexivity.
Qed.
Lemma clip1_below x l h : @fleb N l h = true -> @fleb N x l = true -> clip1 x l h = l.
Proof.
  intros H L. unfold clip1, maxi, mini.
  assert (A : @fltb N l x = false).
  { apply not_true_iff_false. intros K. rewrite ltb_cases in K. rewrite leb_cases in L.
    destruct K as [(A & B & C)|[(A & B & C)|(A & B & C)]]; destruct L as [(P & Q & S)|[(P & Q)|(P & Q)]];
      subst; try discriminate; try congruence; lra. }
  destruct (@fltb N x h) eqn:E1; [rewrite A; reflexivity|].
  destruct (@fltb N l h) eqn:E2; [|reflexivity].
  exfalso. apply not_true_iff_false in E1. apply E1. rewrite ltb_cases in *. rewrite leb_cases in L.
  destruct E2 as [(A' & B & C)|[(A' & B & C)|(A' & B & C)]]; destruct L as [(P & Q & S)|[(P & Q)|(P & Q)]];
      subst; try discriminate; try congruence.
  - left. repeat split; auto. lra.
  - right. left. repeat split; auto; intros ->; discriminate.
  - right. left. repeat split; auto.
  - right. right. repeat split; auto; intros ->; discriminate.
  - right. left. repeat split; discriminate.
Qed.
Lemma clip1_above x l h : @fleb N l h = true -> @fleb N h x = true -> @feqb N (clip1 x l h) h = true.
Proof.
  intros H L. destruct (le_not_nan _ _ H) as [Nl Nh]. unfold clip1, maxi, mini.
  assert (A : @fltb N x h = false).
  { apply not_true_iff_false. intros K. rewrite ltb_cases in K. rewrite leb_cases in L.
    destruct K as [(A & B & C)|[(A & B & C)|(A & B & C)]]; destruct L as [(P & Q & S)|[(P & Q)|(P & Q)]];
      subst; try discriminate; try congruence; lra. }
  rewrite A. destruct (@fltb N l h) eqn:E2; [auto using eq_refl_f|]. apply le_not_lt; assumption.
Qed.
Lemma clip1_nan l h : @fleb N l h = true -> @feqb N (clip1 B754_nan l h) h = true.
Proof.
  intros H. destruct (le_not_nan _ _ H) as [Nl Nh]. unfold clip1, maxi, mini. rewrite nan_ltb_l.
  destruct (@fltb N l h) eqn:E2; [auto using eq_refl_f|]. apply le_not_lt; assumption.
Qed.

(** ** [positive], [hasNegative]. *)
Definition fz : f32 := B754_zero false.
Lemma lit0 : @flit N 0 = fz. Proof. reflexivity. Qed.
Definition pos1 (x : f32) : f32 := maxi N x fz.
Lemma positive_eq t : T_positive N t = V3 (pos1 (v0 t)) (pos1 (v1 t)) (pos1 (v2 t)).
Proof. reflexivity. Qed.
Lemma pos1_spec x : @fleb N fz (pos1 x) = true /\
  (@fltb N fz x = true -> pos1 x = x) /\ (@fltb N fz x = false -> pos1 x = fz).
Proof.
  unfold pos1, maxi. destruct (@fltb N fz x) eqn:E; repeat split; auto using lt_le; discriminate.
Qed.
End Cmp.

(** ** The statements of C07. *)
Lemma C07_clip_l (lm : libm) (t : Vector3 f32) (l h : f32) :
  @fleb (FN lm) l h = true ->
  exists c, T_clip (FN lm) t l h = c /\
    allV (fun y => @fleb (FN lm) l y = true /\ @fleb (FN lm) y h = true) c /\
    T_clip (FN lm) c l h = c /\
    forall i x y, V_index t i = Ret x -> V_index c i = Ret y ->
      (@fltb (FN lm) l x = true -> @fltb (FN lm) x h = true -> y = x) /\
      (@fleb (FN lm) l x = true -> @fleb (FN lm) x h = true -> @feqb (FN lm) y x = true) /\
      (@fleb (FN lm) x l = true -> y = l) /\
      (@fleb (FN lm) h x = true -> @feqb (FN lm) y h = true) /\
      (x = B754_nan -> @feqb (FN lm) y h = true).
Proof.
  intros H. eexists; split; [reflexivity|]. rewrite !(clip_eq lm). split; [|split].
  - unfold allV. cbn [v0 v1 v2]. auto using clip1_range.
  - cbn [v0 v1 v2]. rewrite !clip1_idem by exact H. reflexivity.
  - assert (K : forall x, (@fltb (FN lm) l x = true -> @fltb (FN lm) x h = true -> clip1 lm x l h = x) /\
      (@fleb (FN lm) l x = true -> @fleb (FN lm) x h = true -> @feqb (FN lm) (clip1 lm x l h) x = true) /\
      (@fleb (FN lm) x l = true -> clip1 lm x l h = l) /\
      (@fleb (FN lm) h x = true -> @feqb (FN lm) (clip1 lm x l h) h = true) /\
      (x = B754_nan -> @feqb (FN lm) (clip1 lm x l h) h = true)).
    { intros x. split; [apply clip1_strictly_inside|]. split; [apply clip1_inside|].
      split; [apply clip1_below, H|]. split; [apply clip1_above, H|]. intros ->. apply clip1_nan, H. }
    intros i x y Hx Hy.
    assert (Hi : (0 <= i < 3)%Z) by (apply (proj1 (V_index_spec t i)); eauto).
    destruct (cases3 i Hi) as [->|[->| ->]]; cbn in Hx, Hy; injection Hx as <-; injection Hy as <-; apply K.
Qed.
Lemma C07_positive_l (lm : libm) (t : Vector3 f32) :
  exists c, T_positive (FN lm) t = c /\
    forall i x y, V_index t i = Ret x -> V_index c i = Ret y ->
      @fleb (FN lm) (fofZ 0) y = true /\
      (@fltb (FN lm) (fofZ 0) x = true -> y = x) /\
      (@fltb (FN lm) (fofZ 0) x = false -> y = fofZ 0).
Proof.
  eexists; split; [reflexivity|]. rewrite positive_eq.
  change (@fofZ (FN lm) 0) with fz. intros i x y Hx Hy.
  assert (Hi : (0 <= i < 3)%Z) by (apply (proj1 (V_index_spec t i)); eauto).
  destruct (cases3 i Hi) as [->|[->| ->]]; cbn in Hx, Hy; injection Hx as <-; injection Hy as <-; apply pos1_spec.
Qed.
Lemma C07_hasNegative_l (lm : libm) (t : Vector3 f32) :
  T_hasNegative (FN lm) t = true <->
  exists i x, V_index t i = Ret x /\ @fltb (FN lm) x (fofZ 0) = true.
Proof.
  unfold T_hasNegative, isNegative, vref. rewrite !orb_true_iff. split.
  - intros [[H|H]|H]; [exists 0%Z|exists 1%Z|exists 2%Z]; eexists; (split; [reflexivity|exact H]).
  - intros (i & x & Hx & H).
    assert (Hi : (0 <= i < 3)%Z) by (apply (proj1 (V_index_spec t i)); eauto).
    destruct (cases3 i Hi) as [->|[->| ->]]; cbn in Hx; injection Hx as <-; auto.
Qed.
