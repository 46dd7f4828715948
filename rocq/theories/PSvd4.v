(** * The decomposition over the reals: one round of the iteration. *)
From Coq Require Import ZArith Reals Lra Lia List Bool.
From Flocq Require Import Core.Raux.
From Verif Require Import Num NumR MVec MSolver RTac RLin RSvd PSolver PSolver3 PSvd PSvd2 PSvd3.
Import ListNotations.
Local Open Scope R_scope.

(** ** The middle factor: the leading block is M, below the diagonal zero, on the diagonal w;
    in the finished columns D only the diagonal. *)
Record shp (n kk : nat) (w : nat -> R) (D : nat -> Prop) (M C : nat -> nat -> R) : Prop := mkShp {
  s_low : forall p q, (p < n)%nat -> (q < p)%nat -> (kk <= p)%nat -> C p q = 0;
  s_diag : forall p, (kk <= p < n)%nat -> C p p = w p;
  s_blk : forall p q, (p < kk)%nat -> (q < kk)%nat -> C p q = M p q;
  s_D : forall p q, (kk <= q < n)%nat -> D q -> (p < q)%nat -> C p q = 0 }.
Lemma shp_rot n kk w D M C j i c s : (j < i)%nat -> (i < kk)%nat -> (kk <= n)%nat ->
  shp n kk w D M C -> shp n kk w D (rot j i c s M) (rot j i c s C).
Proof.
  intros Hj Hi Hk [L G B DD]. split.
  - intros p q Hp Hq Kp. unfold rot. nats; subst; rewrite ?L by lia; ring.
  - intros p Hp. unfold rot. nats. apply G, Hp.
  - intros p q Hp Hq. unfold rot. nats; rewrite !B by lia; reflexivity.
  - intros p q Hq Hd Hpq. unfold rot. nats. apply DD; assumption.
Qed.
Lemma shp_rotrow n kk w D M C j i c s : (j < i)%nat -> (i < kk)%nat -> (kk <= n)%nat ->
  shp n kk w D M C -> shp n kk w D (rotrow j i c s M) (rotrow j i c s C).
Proof.
  intros Hj Hi Hk [L G B DD]. unfold rotrow, tr. split.
  - intros p q Hp Hq Kp. unfold rot. nats. apply L; lia.
  - intros p Hp. unfold rot. nats. apply G, Hp.
  - intros p q Hp Hq. unfold rot. nats; rewrite !B by lia; reflexivity.
  - intros p q Hq Hd Hpq. unfold rot. nats; rewrite ?DD by (auto; lia); ring.
Qed.
Lemma shp_M n kk w w' D M M' C : (forall p, (kk <= p < n)%nat -> w' p = w p) -> meq kk kk M M' -> shp n kk w D M C -> shp n kk w' D M' C.
Proof.
  intros W E [L G B DD]. split; [exact L| | |exact DD].
  - intros p Hp. rewrite W by exact Hp. apply G, Hp.
  - intros p q Hp Hq. rewrite B by assumption. apply E; assumption.
Qed.

(** ** The sweep *)
(** the leading block while the bulge is at row j *)
Definition mid (l j : nat) (c s f x : R) (w e : nat -> R) : nat -> nat -> R := fun p q =>
  if Nat.eqb q p then (if Nat.eqb p j then x else w p)
  else if Nat.eqb q (p + 1) then (if Nat.eqb q l then 0 else if Nat.eqb q j then f else if Nat.eqb p j then c * e q else e q)
  else if Nat.eqb q (p + 2) && Nat.eqb q (j + 1) && Nat.ltb l j then s * e q else 0.
Lemma mid_step l j k c s f x (w e : nat -> R) c1 s1 z f1 g1 h1 y1 c2 s2 z1 : (l <= j)%nat -> (j + 1 <= k)%nat ->
  c1 * f + s1 * (s * e (j + 1)%nat) = z -> c1 * (s * e (j + 1)%nat) - s1 * f = 0 ->
  f1 = x * c1 + c * e (j + 1)%nat * s1 -> g1 = c * e (j + 1)%nat * c1 - x * s1 -> h1 = w (j + 1)%nat * s1 -> y1 = w (j + 1)%nat * c1 ->
  c2 * f1 + s2 * h1 = z1 -> c2 * h1 - s2 * f1 = 0 ->
  meq (k + 1) (k + 1) (rotrow j (j + 1) c2 s2 (rot j (j + 1) c1 s1 (mid l j c s f x w e)))
    (mid l (j + 1) c2 s2 (c2 * g1 + s2 * y1) (c2 * y1 - s2 * g1) (updv w j z1) (updv e j z)).
Proof.
  intros Hl Hk Z1 Z0 F1 G1 H1 Y1 Z2 Z3.
  set (M1 := fun p q => if Nat.eqb q j then (if Nat.eqb p j then f1 else if Nat.eqb p (j + 1) then h1 else if Nat.eqb (p + 1) j && Nat.ltb l j then z else 0)
    else if Nat.eqb q (j + 1) then (if Nat.eqb p j then g1 else if Nat.eqb p (j + 1) then y1 else 0) else mid l j c s f x w e p q).
  assert (E1 : forall p q, rot j (j + 1) c1 s1 (mid l j c s f x w e) p q = M1 p q).
  { intros p q. unfold rot, M1. destruct (Nat.eqb_spec q j) as [->|Q].
    - unfold mid. nats; try subst l; subst; try lia; try ring.
    - destruct (Nat.eqb_spec q (j + 1)) as [->|Q2]; [|reflexivity].
      unfold mid. nats; try subst l; subst; try lia; try ring. rewrite <- Z0. ring. }
  intros p q Hp Hq. unfold rotrow, tr, rot at 1. rewrite !E1. clear E1. unfold M1. clear M1.
  destruct (Nat.eqb_spec p j) as [->|P]; [|destruct (Nat.eqb_spec p (j + 1)) as [->|P2]];
  (destruct (Nat.eqb_spec q j) as [->|Q]; [|destruct (Nat.eqb_spec q (j + 1)) as [->|Q2]]); unfold mid, updv; nats; subst; try lia; try ring.
  rewrite <- Z3. ring.
Qed.

(** ** A decomposition under way *)
Definition dec (m n : nat) (A : nat -> nat -> R) (kk : nat) (D : nat -> Prop) (M U V : nat -> nat -> R) (w : nat -> R) : Prop :=
  orthonormal m n U /\ orthonormal n n V /\ (forall q, (kk <= q < n)%nat -> D q -> 0 <= w q) /\
  exists C, meq m n A (prod3 n U C V) /\ shp n kk w D M C.
Lemma dec_rot m n A kk D M U V w w' j i c1 s1 c2 s2 M' : (j < i)%nat -> (i < kk)%nat -> (kk <= n)%nat -> (n <= m)%nat ->
  c1 * c1 + s1 * s1 = 1 -> c2 * c2 + s2 * s2 = 1 -> (forall p, (kk <= p < n)%nat -> w' p = w p) ->
  meq kk kk (rotrow j i c2 s2 (rot j i c1 s1 M)) M' ->
  dec m n A kk D M U V w -> dec m n A kk D M' (rot j i c2 s2 U) (rot j i c1 s1 V) w'.
Proof.
  intros Hj Hi Hk Hm U1 U2 W EM (OU & OV & NN & C & EA & S). split; [|split; [|split]].
  - apply rot_ortho; try lia; assumption.
  - apply rot_ortho; try lia; assumption.
  - intros q Hq Dq. rewrite W by exact Hq. apply NN; assumption.
  - exists (rotrow j i c2 s2 (rot j i c1 s1 C)). split.
    + intros p q Hp Hq. rewrite (EA p q Hp Hq). rewrite rot_prod_l by (try lia; assumption). now rewrite rot_prod_r by (try lia; assumption).
    + apply (shp_M n kk w w' D _ M' _ W EM). apply shp_rotrow; try lia. apply shp_rot; try lia. exact S.
Qed.

(** what one step of the sweep computes *)
Record stepeq (j : nat) (c s f x : R) (w e : nat -> R) (c1 s1 z f1 g1 h1 y1 c2 s2 z1 : R) : Prop := mkSE {
  se_z : z * z = f * f + (s * e (j + 1)%nat) * (s * e (j + 1)%nat); se_zp : 0 < z;
  se_c1 : c1 = f / z; se_s1 : s1 = s * e (j + 1)%nat / z;
  se_f1 : f1 = x * c1 + c * e (j + 1)%nat * s1; se_g1 : g1 = c * e (j + 1)%nat * c1 - x * s1;
  se_h1 : h1 = w (j + 1)%nat * s1; se_y1 : y1 = w (j + 1)%nat * c1;
  se_z1 : z1 * z1 = f1 * f1 + h1 * h1; se_z1p : 0 <= z1;
  se_cs : (z1 = 0 /\ c2 = c1 /\ s2 = s1) \/ (0 < z1 /\ c2 = f1 / z1 /\ s2 = h1 / z1) }.
Lemma qr_step_eq m n j c s f x U w e V : (j + 1 < n)%nat -> (n <= m)%nat -> s * e (j + 1)%nat <> 0 ->
  exists c1 s1 z f1 g1 h1 y1 c2 s2 z1, stepeq j c s f x w e c1 s1 z f1 g1 h1 y1 c2 s2 z1 /\
  qr_step RN m n j (mkQR RN (Some c) (Some s) (Some f) (Some x) (mat m n U) (vec n w) (vec n e) (mat n n V)) =
  Ret (mkQR RN (Some c2) (Some s2) (Some (c2 * g1 + s2 * y1)) (Some (c2 * y1 - s2 * g1)) (mat m n (rot j (j + 1) c2 s2 U)) (vec n (updv w j z1)) (vec n (updv e j z)) (mat n n (rot j (j + 1) c1 s1 V))).
Proof.
  intros Hj Hm NZ. unfold qr_step. cbn [q_c q_s q_f q_x q_a q_w q_rv1 q_v]. mg. cbn [fmul RN rx2]. rewrite PYTHAG_real.
  set (h := s * e (j + 1)%nat) in *. set (z := sqrt (f * f + h * h)).
  assert (Zp : 0 < z) by (apply sqrt_lt_R0; nra).
  mg. rewrite !divS by lra. set (c1 := f / z). set (s1 := h / z). cbn [fmul fadd fsub RN rx2].
  rewrite rotate_full by lia. cbn [bind]. rewrite PYTHAG_real.
  set (f1 := x * c1 + c * e (j + 1)%nat * s1). set (g1 := c * e (j + 1)%nat * c1 - x * s1). set (h1 := w (j + 1)%nat * s1). set (y1 := w (j + 1)%nat * c1).
  set (z1 := sqrt (f1 * f1 + h1 * h1)). mg. rewrite ftrueR. rewrite lit1.
  assert (Z1p : 0 <= z1) by apply sqrt_pos.
  assert (Ez : z * z = f * f + h * h) by (apply sqrt_sqrt; nra). assert (Ez1 : z1 * z1 = f1 * f1 + h1 * h1) by (apply sqrt_sqrt; nra).
  destruct (Req_bool_spec z1 0) as [Z|Z]; cbn [negb].
  - exists c1, s1, z, f1, g1, h1, y1, c1, s1, z1. split; [constructor; auto|]. rn. rewrite rotate_full by lia. reflexivity.
  - exists c1, s1, z, f1, g1, h1, y1, (f1 * (1 / z1)), (h1 * (1 / z1)), z1. split.
    + constructor; auto. right. split; [lra|]. unfold Rdiv. rewrite Rmult_1_l. auto.
    + rewrite divS by exact Z. rn. rewrite rotate_full by lia. reflexivity.
Qed.
Lemma stepeq_facts j c s f x w e c1 s1 z f1 g1 h1 y1 c2 s2 z1 : stepeq j c s f x w e c1 s1 z f1 g1 h1 y1 c2 s2 z1 ->
  c1 * c1 + s1 * s1 = 1 /\ c2 * c2 + s2 * s2 = 1 /\ c1 * f + s1 * (s * e (j + 1)%nat) = z /\ c1 * (s * e (j + 1)%nat) - s1 * f = 0 /\
  c2 * f1 + s2 * h1 = z1 /\ c2 * h1 - s2 * f1 = 0.
Proof.
  intros [Ez Zp -> -> EF EG EH EY Ez1 Z1p CS]. set (h := s * e (j + 1)%nat) in *.
  assert (U1 : f / z * (f / z) + h / z * (h / z) = 1).
  { replace (f / z * (f / z) + h / z * (h / z)) with ((f * f + h * h) / (z * z)) by (field; lra). rewrite <- Ez. field. lra. }
  split; [exact U1|]. split; [|split; [|split; [|split]]].
  - destruct CS as [(E & -> & ->)|(P & -> & ->)]; [exact U1|].
    replace (f1 / z1 * (f1 / z1) + h1 / z1 * (h1 / z1)) with ((f1 * f1 + h1 * h1) / (z1 * z1)) by (field; lra). rewrite <- Ez1. field. lra.
  - replace (f / z * f + h / z * h) with ((f * f + h * h) / z) by (field; lra). rewrite <- Ez. field. lra.
  - field. lra.
  - destruct CS as [(E & -> & ->)|(P & -> & ->)].
    + rewrite E in *. assert (f1 = 0) by nra. assert (h1 = 0) by nra. rewrite H, H0. ring.
    + replace (f1 / z1 * f1 + h1 / z1 * h1) with ((f1 * f1 + h1 * h1) / z1) by (field; lra). rewrite <- Ez1. field. lra.
  - destruct CS as [(E & -> & ->)|(P & -> & ->)].
    + rewrite E in *. assert (f1 = 0) by nra. assert (h1 = 0) by nra. rewrite H, H0. ring.
    + field. lra.
Qed.
Lemma stepeq_dec m n A k D l j U V c s f x w e c1 s1 z f1 g1 h1 y1 c2 s2 z1 : (l <= j)%nat -> (j < k)%nat -> (k < n)%nat -> (n <= m)%nat ->
  stepeq j c s f x w e c1 s1 z f1 g1 h1 y1 c2 s2 z1 ->
  dec m n A (k + 1) D (mid l j c s f x w e) U V w ->
  dec m n A (k + 1) D (mid l (j + 1) c2 s2 (c2 * g1 + s2 * y1) (c2 * y1 - s2 * g1) (updv w j z1) (updv e j z)) (rot j (j + 1) c2 s2 U) (rot j (j + 1) c1 s1 V) (updv w j z1).
Proof.
  intros Hl Hj Hk Hm SE. destruct (stepeq_facts _ _ _ _ _ _ _ _ _ _ _ _ _ _ _ _ _ SE) as (U1 & U2 & K1 & K2 & K3 & K4).
  apply dec_rot; try lia; try assumption.
  - intros p Hp. apply updv_neq. lia.
  - destruct SE as [_ _ _ _ EF EG EH EY _ _ _]. apply (mid_step l j k c s f x w e c1 s1 z f1 g1 h1 y1 c2 s2 z1); try assumption; lia.
Qed.
Lemma stepeq_s j c s f x w e c1 s1 z f1 g1 h1 y1 c2 s2 z1 : stepeq j c s f x w e c1 s1 z f1 g1 h1 y1 c2 s2 z1 ->
  s * e (j + 1)%nat <> 0 -> w (j + 1)%nat <> 0 -> s2 <> 0.
Proof.
  intros [Ez Zp -> -> EF EG EH EY Ez1 Z1p CS] Hs Hw.
  assert (S1 : s * e (j + 1)%nat / z <> 0) by (intros E; apply Hs; unfold Rdiv in E; apply Rmult_integral in E; destruct E as [E|E]; [exact E|exfalso; revert E; apply Rinv_neq_0_compat; lra]).
  destruct CS as [(E & -> & ->)|(P & -> & ->)]; [exact S1|]. rewrite EH. unfold Rdiv. apply Rmult_integral_contrapositive_currified; [apply Rmult_integral_contrapositive_currified; assumption|apply Rinv_neq_0_compat; lra].
Qed.

(** ** One round *)
Lemma lost_iff an r : @feqb RN (@fadd RN (@ffabs RN (Some r)) (Some an)) (Some an) = Req_bool r 0.
Proof.
  rn. destruct (Req_bool_spec r 0) as [->|N].
  - rewrite Rabs_R0, Rplus_0_l. now apply Req_bool_true.
  - apply Req_bool_false. pose proof (Rabs_pos_lt r N). lra.
Qed.
Lemma split_spec n an w e : e 0%nat = 0 -> forall k, (k < n)%nat -> exists flag l, split_test RN (Some an) (vec n w) (vec n e) k = Ret (flag, l) /\
  (l <= k)%nat /\ (flag = false -> e l = 0) /\ (flag = true -> (1 <= l)%nat /\ w (l - 1)%nat = 0 /\ e l <> 0) /\
  (forall p, (l < p <= k)%nat -> e p <> 0 /\ w (p - 1)%nat <> 0).
Proof.
  intros E0. induction k as [|k IH]; intros Hk.
  - exists false, 0%nat. cbn [split_test]. mg. rewrite lost_iff, E0, Req_bool_true by reflexivity. split; [reflexivity|]. split; [lia|]. split; [auto|]. split; [discriminate|]. intros p Hp. lia.
  - cbn [split_test]. mg. rewrite lost_iff. destruct (Req_bool_spec (e (S k)) 0) as [E|N].
    { exists false, (S k). split; [reflexivity|]. split; [lia|]. split; [auto|]. split; [discriminate|]. intros p Hp. lia. }
    mg. rewrite lost_iff. destruct (Req_bool_spec (w k) 0) as [W|W].
    { exists true, (S k). split; [reflexivity|]. split; [lia|]. split; [discriminate|]. split; [|intros p Hp; lia]. intros _. rewrite Nat.sub_succ, Nat.sub_0_r. split; [lia|]. split; assumption. }
    destruct (IH ltac:(lia)) as (flag & l & Q & L & F & T & P). exists flag, l. split; [exact Q|]. split; [lia|]. split; [exact F|]. split; [exact T|].
    intros p Hp. destruct (Nat.eq_dec p (S k)) as [->|NE]; [rewrite Nat.sub_succ, Nat.sub_0_r; split; assumption|apply P; lia].
Qed.

(** cancellation when only one superdiagonal entry is concerned *)
Lemma cancel_eq m n an e k w U : (1 <= k)%nat -> (k < n)%nat -> (n <= m)%nat -> e k <> 0 ->
  let h := sqrt (e k * e k + w k * w k) in
  cancel RN m (Some an) (vec n e) k k (vec n w) (mat m n U) = Ret (vec n (updv w k h), mat m n (rot (k - 1) k (w k * (1 / h)) (- e k * (1 / h)) U)).
Proof.
  intros H1 Hk Hm N h. unfold cancel. destruct k as [|nm]; [lia|]. set (k := S nm) in *. rewrite lit1.
  unfold loop. replace (k + 1 - k)%nat with 1%nat by lia. cbn [seq foldM]. mg. cbn [fmul RN rx2]. rewrite Rmult_1_l, lost_iff, Req_bool_false by exact N.
  mg. rewrite PYTHAG_real. fold h. assert (0 < h) by (apply sqrt_lt_R0; nra). mg. rewrite divS by lra. rn. replace (k - 1)%nat with nm by lia. rewrite rotate_full by lia. reflexivity.
Qed.
Lemma cancel_dec m n A D e k w U V : (1 <= k)%nat -> (k < n)%nat -> (n <= m)%nat -> e k <> 0 -> w (k - 1)%nat = 0 ->
  dec m n A (k + 1) D (bid w e) U V w ->
  let h := sqrt (e k * e k + w k * w k) in
  dec m n A (k + 1) D (bid (updv w k h) (updv e k 0)) (rot (k - 1) k (w k * (1 / h)) (- e k * (1 / h)) U) V (updv w k h).
Proof.
  intros H1 Hk Hm N W (OU & OV & NN & C & EA & S) h. assert (Hp : 0 < h) by (apply sqrt_lt_R0; nra).
  assert (Eh : h * h = e k * e k + w k * w k) by (apply sqrt_sqrt; nra). clearbody h.
  assert (U1 : w k * (1 / h) * (w k * (1 / h)) + - e k * (1 / h) * (- e k * (1 / h)) = 1).
  { replace (w k * (1 / h) * (w k * (1 / h)) + - e k * (1 / h) * (- e k * (1 / h))) with ((e k * e k + w k * w k) / (h * h)) by (field; lra). rewrite <- Eh. field. lra. }
  split; [|split; [exact OV|split]].
  - apply rot_ortho; try lia; assumption.
  - intros q Hq Dq. rewrite updv_neq by lia. apply NN; [lia|exact Dq].
  - exists (rotrow (k - 1) k (w k * (1 / h)) (- e k * (1 / h)) C). split.
    + intros p q Hpm Hq. rewrite (EA p q Hpm Hq). now rewrite rot_prod_l by (try lia; assumption).
    + apply (shp_M n (k + 1) w (updv w k h) D (rotrow (k - 1) k (w k * (1 / h)) (- e k * (1 / h)) (bid w e)) _ _); [intros; apply updv_neq; lia| |apply shp_rotrow; try lia; exact S].
      intros p q Hpk Hqk. unfold rotrow, tr, rot, bid, updv. set (k' := (k - 1)%nat) in *. replace k with (k' + 1)%nat in * by lia. clearbody k'.
      nats; subst; try lia; try ring; rewrite ?W; try ring.
      replace (w (k' + 1)%nat * (w (k' + 1)%nat * (1 / h)) - e (k' + 1)%nat * (- e (k' + 1)%nat * (1 / h))) with ((e (k' + 1)%nat * e (k' + 1)%nat + w (k' + 1)%nat * w (k' + 1)%nat) / h) by (field; lra). rewrite <- Eh. field. lra.
Qed.

(** making the value nonnegative *)
Definition negcol (k : nat) (X : nat -> nat -> R) : nat -> nat -> R := fun p q => if Nat.eqb q k then - X p q else X p q.
Lemma make_nonneg_eq m n k U w V e : (k < n)%nat ->
  make_nonneg RN n k (Some (w k)) (mkSVD RN (mat m n U) (vec n w) (mat n n V) (vec n e)) =
  Ret (if Rlt_bool (w k) 0 then mkSVD RN (mat m n U) (vec n (updv w k (- w k))) (mat n n (negcol k V)) (vec n e) else mkSVD RN (mat m n U) (vec n w) (mat n n V) (vec n e)).
Proof.
  intros Hk. unfold make_nonneg. rewrite lit00. cbn [fltb RN rxb s_w s_v s_a s_rv1]. destruct (Rlt_bool (w k) 0); [|reflexivity]. cbn [fopp RN rx1]. mg.
  rewrite (loop_eq (fun j => mat n n (fun p q => if Nat.eqb q k && Nat.ltb p j then - V p q else V p q)) 0 n); [|lia| |].
  - cbn [bind]. do 2 f_equal. apply mat_ext. intros p q Hp Hq. unfold negcol. nats; reflexivity.
  - apply mat_ext. intros p q Hp Hq. nats; reflexivity.
  - intros j Hj. mg. rn. mg. f_equal. apply mat_ext. intros p q Hp Hq. unfold updm, updv. nats; subst; try reflexivity; lia.
Qed.
Lemma negcol_ortho n k V : (k < n)%nat -> orthonormal n n V -> orthonormal n n (negcol k V).
Proof.
  intros Hk O p q Hp Hq. rewrite <- (O p q Hp Hq) at 1. unfold negcol. destruct (Nat.eqb_spec p k) as [->|P]; destruct (Nat.eqb_spec q k) as [->|Q].
  - apply bsum_ext. intros. ring.
  - rewrite (O k q Hk Hq), delta_neq by auto. rewrite (bsum_ext n _ (fun i => -1 * (V i k * V i q))) by (intros; ring). rewrite bsum_scal, (O k q Hk Hq), delta_neq by auto. ring.
  - rewrite (O p k Hp Hk), delta_neq by auto. rewrite (bsum_ext n _ (fun i => -1 * (V i p * V i k))) by (intros; ring). rewrite bsum_scal, (O p k Hp Hk), delta_neq by auto. ring.
  - reflexivity.
Qed.
Definition addk (D : nat -> Prop) (k : nat) : nat -> Prop := fun q => D q \/ q = k.
Lemma dec_next m n A D k U V w e : (k < n)%nat -> dec m n A (k + 1) D (bid w e) U V w -> 0 <= w k -> ((0 < k)%nat -> e k = 0) ->
  dec m n A k (addk D k) (bid w e) U V w.
Proof.
  intros Hk (OU & OV & NN & C & EA & [L G B DD]) Hw He. split; [exact OU|]. split; [exact OV|]. split.
  - intros q Hq [Dq| ->]; [|exact Hw]. destruct (Nat.eq_dec q k) as [->|N]; [exact Hw|]. apply NN; [lia|exact Dq].
  - exists C. split; [exact EA|]. split.
    + intros p q Hp Hq Kp. destruct (Nat.eq_dec p k) as [->|N]; [|apply L; lia]. rewrite B by lia. unfold bid. nats. reflexivity.
    + intros p Hp. destruct (Nat.eq_dec p k) as [->|N]; [|apply G; lia]. rewrite B by lia. unfold bid. nats. reflexivity.
    + intros p q Hp Hq. apply B; lia.
    + intros p q Hq Dq Hpq. destruct (Nat.eq_dec q k) as [->|N].
      * rewrite B by lia. unfold bid. nats; [apply He; lia|reflexivity].
      * destruct Dq as [Dq|Dq]; [|contradiction]. apply DD; [lia|exact Dq|exact Hpq].
Qed.
Lemma dec_weaken m n A D k U V w e : (k < n)%nat -> ~ D k -> dec m n A (k + 1) D (bid w e) U V w -> dec m n A k D (bid w e) U V w.
Proof.
  intros Hk ND (OU & OV & NN & C & EA & [L G B DD]). split; [exact OU|]. split; [exact OV|]. split.
  - intros q Hq Dq. destruct (Nat.eq_dec q k) as [->|N]; [contradiction|]. apply NN; [lia|exact Dq].
  - exists C. split; [exact EA|]. split.
    + intros p q Hp Hq Kp. destruct (Nat.eq_dec p k) as [->|N]; [|apply L; lia]. rewrite B by lia. unfold bid. nats. reflexivity.
    + intros p Hp. destruct (Nat.eq_dec p k) as [->|N]; [|apply G; lia]. rewrite B by lia. unfold bid. nats. reflexivity.
    + intros p q Hp Hq. apply B; lia.
    + intros p q Hq Dq Hpq. destruct (Nat.eq_dec q k) as [->|N]; [contradiction|]. apply DD; [lia|exact Dq|exact Hpq].
Qed.
Lemma dec_M m n A kk D M M' U V w : meq kk kk M M' -> dec m n A kk D M U V w -> dec m n A kk D M' U V w.
Proof. intros E (OU & OV & NN & C & EA & S). repeat (split; [assumption|]). exists C. split; [exact EA|]. now apply (shp_M n kk w w D M M' C). Qed.
Lemma dec_negcol m n A D k U V w e : (k < n)%nat -> dec m n A (k + 1) D (bid w e) U V w -> dec m n A (k + 1) D (bid (updv w k (- w k)) (updv e k (- e k))) U (negcol k V) (updv w k (- w k)).
Proof.
  intros Hk (OU & OV & NN & C & EA & [L G B DD]). split; [exact OU|]. split; [now apply negcol_ortho|]. split.
  - intros q Hq Dq. rewrite updv_neq by lia. apply NN; [lia|exact Dq].
  - exists (negcol k C). split.
    + intros p q Hp Hq. rewrite (EA p q Hp Hq). unfold prod3, negcol. apply bsum_ext. intros r _. apply bsum_ext. intros t _. nats; ring.
    + unfold negcol. split.
      * intros p q Hp Hq Kp. rewrite (L p q Hp Hq Kp). nats; ring.
      * intros p Hp. rewrite updv_neq by lia. nats. apply G, Hp.
      * intros p q Hp Hq. rewrite B by lia. unfold bid, updv. nats; subst; try lia; try ring.
      * intros p q Hq Dq Hpq. nats. apply DD; assumption.
Qed.
Lemma nonneg_dec m n A D k U V w e e0 : (k < n)%nat -> dec m n A (k + 1) D (bid w e) U V w -> ((0 < k)%nat -> e k = 0) ->
  exists w' V', make_nonneg RN n k (Some (w k)) (mkSVD RN (mat m n U) (vec n w) (mat n n V) (vec n e0)) = Ret (mkSVD RN (mat m n U) (vec n w') (mat n n V') (vec n e0)) /\
    (forall p, p <> k -> w' p = w p) /\ w' k = Rabs (w k) /\ dec m n A k (addk D k) (bid w' e) U V' w'.
Proof.
  intros Hk Dc He. rewrite make_nonneg_eq by exact Hk. destruct (Rlt_bool_spec (w k) 0) as [P|P].
  - exists (updv w k (- w k)), (negcol k V). split; [reflexivity|]. split; [intros p Hp; now apply updv_neq|]. split; [rewrite updv_eq, Rabs_left by exact P; reflexivity|].
    apply dec_next; [exact Hk| |rewrite updv_eq; lra|exact He]. apply (dec_M m n A (k + 1) D (bid (updv w k (- w k)) (updv e k (- e k)))); [|now apply dec_negcol].
    intros p q Hp Hq. unfold bid, updv. nats; try reflexivity. assert (Z : e k = 0) by (apply He; lia). subst; lra.
  - exists w, V. split; [reflexivity|]. split; [reflexivity|]. split; [rewrite Rabs_pos_eq by exact P; reflexivity|]. now apply dec_next.
Qed.

(** the sweep *)
Lemma lit2 : @flit RN 2.0 = Some 2.
Proof. cbn [flit RN]. f_equal. unfold Rdec. cbn. lra. Qed.
Lemma dsign_nz f : f + dsign (sqrt (f * f + 1 * 1)) f <> 0.
Proof.
  assert (P : 0 < sqrt (f * f + 1 * 1)) by (apply sqrt_lt_R0; nra). unfold dsign. rewrite Rabs_pos_eq by lra. destruct (Rlt_bool_spec 0 f); lra.
Qed.
Definition shift (x y g h z : R) : R :=
  let f := ((y - z) * (y + z) + (g - h) * (g + h)) / (2 * h * y) in
  ((x - z) * (x + z) + h * (y / (f + dsign (sqrt (f * f + 1 * 1)) f) - h)) / x.
Lemma qr_shift_eq n w e l k : (l < n)%nat -> (k < n)%nat -> w l <> 0 -> w (k - 1)%nat <> 0 -> e k <> 0 ->
  qr_shift RN (vec n w) (vec n e) l k (Some (w k)) = Ret (Some (w l), Some (shift (w l) (w (k - 1)%nat) (e (k - 1)%nat) (e k) (w k))).
Proof.
  intros Hl Hk X Y Z. unfold qr_shift. mg. rewrite lit1, lit2. cbn [fadd fsub fmul RN rx2].
  rewrite divS by (apply Rmult_integral_contrapositive_currified; [nra|exact Y]).
  rewrite PYTHAG_real, DSIGN_real. cbn [fadd fsub fmul RN rx2]. rewrite divS by apply dsign_nz. cbn [fadd fsub fmul RN rx2]. rewrite divS by exact X. reflexivity.
Qed.
Lemma mid_start l k w e f : (l < k)%nat -> e l = 0 -> meq (k + 1) (k + 1) (bid w e) (mid l l 1 1 f (w l) w e).
Proof. intros Hl E p q Hp Hq. unfold bid, mid. nats; subst; try reflexivity; try lia; try assumption; ring. Qed.
Lemma mid_end l k c s f x w e : (l < k)%nat -> meq (k + 1) (k + 1) (mid l k c s f x w e) (bid (updv w k x) (updv (updv e l 0) k f)).
Proof. intros Hl p q Hp Hq. unfold bid, mid, updv. nats; subst; try reflexivity; lia. Qed.
Lemma sweep_spec m n A D l k U V w e f : (l < k)%nat -> (k < n)%nat -> (n <= m)%nat -> e l = 0 -> (forall p, (l < p <= k)%nat -> e p <> 0) -> (forall p, (l < p < k)%nat -> w p <> 0) ->
  dec m n A (k + 1) D (bid w e) U V w ->
  exists c s f' x' U' w' e' V', loop l k (mkQR RN (Some 1) (Some 1) (Some f) (Some (w l)) (mat m n U) (vec n w) (vec n e) (mat n n V)) (qr_step RN m n) =
    Ret (mkQR RN (Some c) (Some s) (Some f') (Some x') (mat m n U') (vec n w') (vec n e') (mat n n V')) /\
    dec m n A (k + 1) D (mid l k c s f' x' w' e') U' V' w' /\ (forall p, (p < l)%nat -> e' p = e p).
Proof.
  intros Hl Hk Hm E0 He Hw Dc.
  destruct (loop_ex (fun j st => exists c s f x U w' e' V, st = mkQR RN (Some c) (Some s) (Some f) (Some x) (mat m n U) (vec n w') (vec n e') (mat n n V) /\
    dec m n A (k + 1) D (mid l j c s f x w' e') U V w' /\ (forall p, (j < p)%nat -> w' p = w p) /\ (forall p, (j < p)%nat \/ (p < l)%nat -> e' p = e p) /\ ((j < k)%nat -> s <> 0)) l k
    (qr_step RN m n) (mkQR RN (Some 1) (Some 1) (Some f) (Some (w l)) (mat m n U) (vec n w) (vec n e) (mat n n V))) as (st & Q & c & s & f' & x' & U' & w' & e' & V' & -> & K1 & K2 & K3 & K4).
  - lia.
  - exists 1, 1, f, (w l), U, w, e, V. split; [reflexivity|]. split; [|split; [reflexivity|split; [reflexivity|intros _; lra]]].
    apply (dec_M m n A (k + 1) D (bid w e)); [apply mid_start; assumption|exact Dc].
  - intros j st Hj (c & s & f0 & x & U0 & w0 & e0 & V0 & -> & K1 & K2 & K3 & K4).
    assert (NZ : s * e0 (j + 1)%nat <> 0) by (apply Rmult_integral_contrapositive_currified; [apply K4; lia|rewrite K3 by lia; apply He; lia]).
    destruct (qr_step_eq m n j c s f0 x U0 w0 e0 V0 ltac:(lia) Hm NZ) as (c1 & s1 & z & f1 & g1 & h1 & y1 & c2 & s2 & z1 & SE & Q).
    eexists. split; [exact Q|]. do 8 eexists. split; [reflexivity|]. split; [|split; [|split]].
    + apply (stepeq_dec m n A k D l j U0 V0 c s f0 x w0 e0 c1 s1 z f1 g1 h1 y1 c2 s2 z1); try lia; assumption.
    + intros p Hp. rewrite updv_neq by lia. apply K2. lia.
    + intros p Hp. rewrite updv_neq by lia. apply K3. lia.
    + intros Hj'. apply (stepeq_s _ _ _ _ _ _ _ _ _ _ _ _ _ _ _ _ _ SE NZ). rewrite K2 by lia. apply Hw. lia.
  - exists c, s, f', x', U', w', e', V'. split; [exact Q|]. split; [exact K1|]. intros p Hp. apply K3. lia.
Qed.

(** with two columns the shift is exact *)
Lemma shift2 x w1 h : x <> 0 -> h <> 0 -> let f := shift x x 0 h w1 in x * (f * f) - x * (h * h) + f * (h * h - x * x + w1 * w1) = 0.
Proof.
  intros X H f. unfold f, shift. clear f. set (f0 := ((x - w1) * (x + w1) + (0 - h) * (0 + h)) / (2 * h * x)).
  set (t := f0 + dsign (sqrt (f0 * f0 + 1 * 1)) f0). assert (T0 : t <> 0) by apply dsign_nz.
  assert (T2 : t * t = 2 * f0 * t + 1).
  { unfold t, dsign. assert (S : sqrt (f0 * f0 + 1 * 1) * sqrt (f0 * f0 + 1 * 1) = f0 * f0 + 1 * 1) by (apply sqrt_sqrt; nra).
    rewrite Rabs_pos_eq by apply sqrt_pos. destruct (Rlt_bool 0 f0); nra. }
  assert (A : x * x - w1 * w1 - h * h = 2 * h * x * f0) by (unfold f0; field; split; assumption).
  assert (E : ((x - w1) * (x + w1) + h * (x / t - h)) / x = h * t).
  { apply (Rmult_eq_reg_r (x * t)); [|now apply Rmult_integral_contrapositive_currified].
    replace (((x - w1) * (x + w1) + h * (x / t - h)) / x * (x * t)) with ((x * x - w1 * w1 - h * h) * t + h * x) by (field; auto). rewrite A.
    replace (h * t * (x * t)) with (h * x * (t * t)) by ring. rewrite T2. ring. }
  rewrite E. replace (h * h - x * x + w1 * w1) with (- (x * x - w1 * w1 - h * h)) by ring. rewrite A.
  replace (x * (h * t * (h * t)) - x * (h * h) + h * t * - (2 * h * x * f0)) with (x * h * h * (t * t - 1 - 2 * f0 * t)) by ring. rewrite T2. ring.
Qed.
Lemma vec_inj n x y i : (i < n)%nat -> vec n x = vec n y -> x i = y i.
Proof. intros Hi E. pose proof (vget_vec n x i Hi) as A. rewrite E, vget_vec in A by exact Hi. congruence. Qed.
Lemma sweep2 m n U w e V c s f' x' U' w' e' V' : (1 < n)%nat -> (n <= m)%nat -> w 0%nat <> 0 -> e 1%nat <> 0 -> e 0%nat = 0 ->
  loop 0 1 (mkQR RN (Some 1) (Some 1) (Some (shift (w 0%nat) (w 0%nat) (e 0%nat) (e 1%nat) (w 1%nat))) (Some (w 0%nat)) (mat m n U) (vec n w) (vec n e) (mat n n V)) (qr_step RN m n) =
    Ret (mkQR RN (Some c) (Some s) (Some f') (Some x') (mat m n U') (vec n w') (vec n e') (mat n n V')) -> f' = 0 \/ w' 0%nat = 0.
Proof.
  intros Hn Hm W E E0. rewrite E0. unfold loop. cbn [seq foldM Nat.sub].
  destruct (qr_step_eq m n 0 1 1 (shift (w 0%nat) (w 0%nat) 0 (e 1%nat) (w 1%nat)) (w 0%nat) U w e V Hn Hm) as (c1 & s1 & z & f1 & g1 & h1 & y1 & c2 & s2 & z1 & SE & Q).
  { cbn [Nat.add]. lra. }
  rewrite Q. cbn [bind]. intros I. injection I as I1 I2 I3 I4 I5 I6 I7 I8.
  assert (F2 : f' = c2 * g1 + s2 * y1) by congruence.
  assert (W0 : w' 0%nat = z1) by (rewrite <- (vec_inj n _ _ 0 ltac:(lia) I6); apply updv_eq).
  destruct SE as [Ez Zp C1 S1 EF EG EH EY Ez1 Z1p CS]. cbn [Nat.add] in *.
  destruct CS as [(Z & _)|(P & -> & ->)]; [right; congruence|]. left. rewrite F2.
  pose proof (shift2 (w 0%nat) (w 1%nat) (e 1%nat) W E) as SH. cbn zeta in SH. set (f := shift (w 0%nat) (w 0%nat) 0 (e 1%nat) (w 1%nat)) in *. clearbody f.
  replace (f1 / z1 * g1 + h1 / z1 * y1) with ((f1 * g1 + h1 * y1) / z1) by (field; lra).
  replace (f1 * g1 + h1 * y1) with (e 1%nat * (w 0%nat * (f * f) - w 0%nat * (e 1%nat * e 1%nat) + f * (e 1%nat * e 1%nat - w 0%nat * w 0%nat + w 1%nat * w 1%nat)) / (z * z)).
  - rewrite SH. field. split; lra.
  - rewrite EF, EG, EH, EY, C1, S1. field. lra.
Qed.

(** ** the whole round *)
Definition svdst (m n : nat) (U : nat -> nat -> R) (w : nat -> R) (V : nat -> nat -> R) (e : nat -> R) : svd_state RN := mkSVD RN (mat m n U) (vec n w) (mat n n V) (vec n e).
Lemma svd_round_spec m n A D an k its U V w e : (k < n)%nat -> (n <= m)%nat -> (its < 30)%nat -> e 0%nat = 0 ->
  ((n <= 2)%nat \/ forall p, (p < n)%nat -> w p <> 0) -> ~ D k ->
  dec m n A (k + 1) D (bid w e) U V w ->
  exists U' w' V' e', e' 0%nat = 0 /\
    ((svd_round RN m n (Some an) k its (svdst m n U w V e) = Ret (Break RN (svdst m n U' w' V' e')) /\ dec m n A k (addk D k) (bid w' e') U' V' w') \/
     (svd_round RN m n (Some an) k its (svdst m n U w V e) = Ret (Continue RN (svdst m n U' w' V' e')) /\ dec m n A (k + 1) D (bid w' e') U' V' w' /\
      e k <> 0 /\ ((k = 1)%nat -> w 0%nat <> 0 /\ (e' 1%nat = 0 \/ w' 0%nat = 0)))).
Proof.
  intros Hk Hm Hits E0 Safe ND Dc. unfold svd_round, svdst. cbn [s_a s_w s_v s_rv1].
  destruct (split_spec n an w e E0 k Hk) as (flag & l & Q & Hl & F & T & P). rewrite Q. cbn [bind]. clear Q.
  destruct flag.
  - destruct (T eq_refl) as (L1 & W0 & El). assert (l = k).
    { destruct Safe as [Hn|NZ]; [lia|]. exfalso. apply (NZ (l - 1)%nat); [lia|exact W0]. }
    subst l. rewrite cancel_eq by assumption. cbn [bind].
    pose proof (cancel_dec m n A D e k w U V L1 Hk Hm El W0 Dc) as Dc'. cbn zeta in Dc'.
    set (h := sqrt (e k * e k + w k * w k)) in *. set (U1 := rot _ _ _ _ _) in *. set (w1 := updv w k h) in *. mg. rewrite Nat.eqb_refl.
    destruct (nonneg_dec m n A D k U1 V w1 (updv e k 0) e Hk Dc') as (w' & V' & Q & _ & _ & Dn); [intros _; apply updv_eq|].
    rewrite Q. cbn [bind]. exists U1, w', V', e. split; [exact E0|]. left. split; [reflexivity|].
    apply (dec_M m n A k _ (bid w' (updv e k 0))); [|exact Dn]. intros p q Hp Hq. unfold bid, updv. nats; reflexivity.
  - cbn [bind]. mg. destruct (Nat.eqb_spec l k) as [->|N].
    + destruct (nonneg_dec m n A D k U V w e e Hk Dc) as (w' & V' & Q & _ & _ & Dn); [intros _; apply F; reflexivity|].
      rewrite Q. cbn [bind]. exists U, w', V', e. split; [exact E0|]. left. split; [reflexivity|exact Dn].
    + rewrite (proj2 (Nat.leb_gt 30 its)) by exact Hits.
      assert (Wl : w l <> 0) by (destruct (P (l + 1)%nat ltac:(lia)) as [_ H]; replace (l + 1 - 1)%nat with l in H by lia; exact H).
      rewrite qr_shift_eq; [|lia|exact Hk|exact Wl|apply P; lia|apply P; lia]. cbn [bind]. rewrite lit1, lit00.
      set (f := shift _ _ _ _ _).
      destruct (sweep_spec m n A D l k U V w e f ltac:(lia) Hk Hm (F eq_refl)) as (c & s & f' & x' & U' & w' & e' & V' & Q & Dm & Ke).
      { intros p Hp. apply P, Hp. }
      { intros p Hp. destruct (P (p + 1)%nat ltac:(lia)) as [_ H]. replace (p + 1 - 1)%nat with p in H by lia. exact H. }
      { exact Dc. }
      rewrite Q. cbn [bind q_rv1 q_w q_f q_x q_a q_v]. mg.
      exists U', (updv w' k x'), V', (updv (updv e' l 0) k f'). split.
      { rewrite updv_neq by lia. destruct (Nat.eq_dec l 0) as [->|NL]; [apply updv_eq|]. rewrite updv_neq by auto. rewrite Ke by lia. exact E0. }
      right. split; [reflexivity|]. split; [|split].
      2: { apply P. lia. }
      2: { intros K1. clear Dc Dm. subst k. assert (L0 : l = 0%nat) by lia. subst l. split; [exact Wl|]. rewrite updv_eq, updv_neq by lia.
           apply (sweep2 m n U w e V c s f' x' U' w' e' V' Hk Hm Wl (proj1 (P 1%nat ltac:(lia))) E0 Q). }
      apply (dec_M m n A (k + 1) D _ (bid (updv w' k x') (updv (updv e' l 0) k f'))) in Dm; [|apply mid_end; lia].
      destruct Dm as (OU & OV & NN & C & EA & S). split; [exact OU|]. split; [exact OV|]. split.
      * intros q Hq Dq. rewrite updv_neq by lia. apply NN; assumption.
      * exists C. split; [exact EA|]. eapply shp_M; [| |exact S]; [intros; apply updv_neq; lia|intros ? ? _ _; reflexivity].
Qed.
