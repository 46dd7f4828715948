(** * Model of [namespace SOLVER] and [class Corrector]
    (include/colorsystem.hpp:7390-7865), and of
    [loadGamutFromICCProfileMemory] (hpp:1230-1234).

    A [SOLVER::Vector] is the list of its floats, a [SOLVER::Matrix] the list of
    its rows.  Every element access is checked: indexing a [std::vector] outside
    its size is [UB].  Loop indices are [nat]s; the conversion of the sizes to
    [int] (hpp:7432-7433, 7797) is taken to be exact (fewer than 2^31 rows). *)
From Coq Require Import ZArith List Bool.
From Verif Require Import Num MVec MTri MSpectrum.
From Verif Require MStream.
Import ListNotations.
Local Open Scope num_scope.

(** [for (k = lo; k < hi; k++) s = f(k, s)], an outcome at each round. *)
Fixpoint foldM {A S} (f : A -> S -> outcome S) (l : list A) (s : S) : outcome S :=
  match l with
  | [] => Ret s
  | x :: t => let! s' := f x s in foldM f t s'
  end.
Definition loop {S} (lo hi : nat) (s : S) (f : nat -> S -> outcome S) : outcome S :=
  foldM f (seq lo (hi - lo)) s.
(** [for (k = n - 1; k >= 0; k--)] *)
Definition loop_down {S} (n : nat) (s : S) (f : nat -> S -> outcome S) : outcome S :=
  foldM f (rev (seq 0 n)) s.

Fixpoint upd {A} (l : list A) (i : nat) (x : A) : list A :=
  match l, i with
  | [], _ => []
  | _ :: t, O => x :: t
  | h :: t, S i' => h :: upd t i' x
  end.

Section Access.
Context {A : Type}.
Definition vget (l : list A) (i : nat) : outcome A := of_option (nth_error l i).
Definition vset (l : list A) (i : nat) (x : A) : outcome (list A) :=
  if Nat.ltb i (length l) then Ret (upd l i x) else UB.
Definition mget (a : list (list A)) (i j : nat) : outcome A :=
  let! r := of_option (nth_error a i) in vget r j.
Definition mset (a : list (list A)) (i j : nat) (x : A) : outcome (list (list A)) :=
  let! r := of_option (nth_error a i) in
  let! r' := vset r j x in
  Ret (upd a i r').
(** hpp:7432-7433 *)
Definition rows (a : list (list A)) : nat := length a.
Definition cols (a : list (list A)) : nat := match a with [] => O | r :: _ => length r end.
End Access.

Section WithNum.
Context (N : Num).
Local Notation F := (F N).
Local Notation T3 := (Vector3 F).
Local Notation Vec := (list F).
Local Notation Mat := (list (list F)).

(** hpp:7415, 7426-7431: the elements are zero-initialised. *)
Definition newVector (d : nat) : Vec := repeat (fofZ 0) d.
Definition newMatrix (r c : nat) : Mat := repeat (repeat (fofZ 0) c) r.

(** hpp:7438 *)
Definition DSIGN (a b : F) : F := if b >? #0 then ffabs a else - ffabs a.
(** hpp:7439-7454; [bt > 0.0] compares in double, widening is exact. *)
Definition PYTHAG (a b : F) : F :=
  let at_ := ffabs a in
  let bt := ffabs b in
  if at_ >? bt then let ct := bt / at_ in at_ * fsqrt (#1.0 + ct * ct)
  else if bt >? #0.0 then let ct := at_ / bt in bt * fsqrt (#1.0 + ct * ct)
  else #0.

(** std::max (hpp:7544) *)
Definition std_max (a b : F) : F := if a <? b then b else a.

(** ** hpp:7473-7545  Householder reduction to bidiagonal form. *)

(** hpp:7476-7508: new [a], [g], [scale] after the left-hand reduction. *)
Definition hh_left (m n i : nat) (a : Mat) : outcome (Mat * F * F) :=
  if negb (Nat.ltb i m) then Ret (a, #0.0, #0.0)
  else
    let! scale := loop i m #0.0 (fun k scale =>
      let! x := mget a k i in Ret (scale + ffabs x)) in
    if negb (ftrue scale) then Ret (a, #0.0, scale)
    else
      let! (a, s) := loop i m (a, #0.0) (fun k '(a, s) =>
        let! x := mget a k i in
        let! a := mset a k i (x / scale) in
        let! y := mget a k i in
        Ret (a, s + y * y)) in
      let! f := mget a i i in
      let g := - DSIGN (fsqrt s) f in
      let h := f * g - s in
      let! a := mset a i i (f - g) in
      let! a :=
        (if Nat.eqb i (n - 1) then Ret a
         else loop (i + 1) n a (fun j a =>
           let! s := loop i m #0.0 (fun k s =>
             let! x := mget a k i in
             let! y := mget a k j in
             Ret (s + x * y)) in
           let f := s / h in
           loop i m a (fun k a =>
             let! y := mget a k j in
             let! x := mget a k i in
             mset a k j (y + f * x)))) in
      let! a := loop i m a (fun k a =>
        let! x := mget a k i in mset a k i (x * scale)) in
      Ret (a, g, scale).

(** hpp:7512-7543: new [a], [rv1], [g], [scale] after the right-hand reduction. *)
Definition hh_right (m n i : nat) (a : Mat) (rv1 : Vec) : outcome (Mat * Vec * F * F) :=
  if negb (Nat.ltb i m && negb (Nat.eqb i (n - 1))) then Ret (a, rv1, #0.0, #0.0)
  else
    let l := (i + 1)%nat in
    let! scale := loop l n #0.0 (fun k scale =>
      let! x := mget a i k in Ret (scale + ffabs x)) in
    if negb (ftrue scale) then Ret (a, rv1, #0.0, scale)
    else
      let! (a, s) := loop l n (a, #0.0) (fun k '(a, s) =>
        let! x := mget a i k in
        let! a := mset a i k (x / scale) in
        let! y := mget a i k in
        Ret (a, s + y * y)) in
      let! f := mget a i l in
      let g := - DSIGN (fsqrt s) f in
      let h := f * g - s in
      let! a := mset a i l (f - g) in
      let! rv1 := loop l n rv1 (fun k rv1 =>
        let! x := mget a i k in vset rv1 k (x / h)) in
      let! a :=
        (if Nat.eqb i (m - 1) then Ret a
         else loop l m a (fun j a =>
           let! s := loop l n #0.0 (fun k s =>
             let! x := mget a j k in
             let! y := mget a i k in
             Ret (s + x * y)) in
           loop l n a (fun k a =>
             let! x := mget a j k in
             let! r := vget rv1 k in
             mset a j k (x + s * r)))) in
      let! a := loop l n a (fun k a =>
        let! x := mget a i k in mset a i k (x * scale)) in
      Ret (a, rv1, g, scale).

(** hpp:7473-7545: one round and the whole loop; [(a, w, rv1, g, scale, anorm)]. *)
Record hh_state := mkHH {
  hh_a : Mat; hh_w : Vec; hh_rv1 : Vec; hh_g : F; hh_scale : F; hh_anorm : F }.
Definition hh_step (m n i : nat) (st : hh_state) : outcome hh_state :=
  let! rv1 := vset (hh_rv1 st) i (hh_scale st * hh_g st) in
  let! (a, g, scale) := hh_left m n i (hh_a st) in
  let! w := vset (hh_w st) i (scale * g) in
  let! (a, rv1, g, scale) := hh_right m n i a rv1 in
  let! wi := vget w i in
  let! ri := vget rv1 i in
  Ret (mkHH a w rv1 g scale (std_max (hh_anorm st) (ffabs wi + ffabs ri))).
Definition householder (m n : nat) (a : Mat) (w rv1 : Vec) : outcome hh_state :=
  loop 0 n (mkHH a w rv1 #0.0 #0.0 #0.0) (hh_step m n).

(** ** hpp:7547-7571  accumulate the right-hand transformation.
    At round [i < n - 1], [l] is [i + 1] and [g] is [rv1[i + 1]], both left by
    the previous round. *)
Definition acc_right_step (n : nat) (a : Mat) (rv1 : Vec) (i : nat) (v : Mat) : outcome Mat :=
  let l := (i + 1)%nat in
  let! v :=
    (if Nat.ltb i (n - 1) then
       let! g := vget rv1 l in
       let! v :=
         (if ftrue g then
            let! v := loop l n v (fun j v =>
              let! x := mget a i j in
              let! p := mget a i l in
              mset v j i ((x / p) / g)) in
            loop l n v (fun j v =>
              let! s := loop l n #0.0 (fun k s =>
                let! x := mget a i k in
                let! y := mget v k j in
                Ret (s + x * y)) in
              loop l n v (fun k v =>
                let! x := mget v k j in
                let! y := mget v k i in
                mset v k j (x + s * y)))
          else Ret v) in
       loop l n v (fun j v =>
         let! v := mset v j i #0.0 in
         mset v i j #0.0)
     else Ret v) in
  mset v i i #1.0.
Definition acc_right (n : nat) (a : Mat) (rv1 : Vec) (v : Mat) : outcome Mat :=
  loop_down n v (acc_right_step n a rv1).

(** ** hpp:7573-7604  accumulate the left-hand transformation. *)
Definition acc_left_step (m n : nat) (w : Vec) (i : nat) (a : Mat) : outcome Mat :=
  let l := (i + 1)%nat in
  let! g := vget w i in
  let! a :=
    (if Nat.ltb i (n - 1)
     then loop l n a (fun j a => mset a i j #0.0) else Ret a) in
  let! a :=
    (if ftrue g then
       let g := #1.0 / g in
       let! a :=
         (if Nat.eqb i (n - 1) then Ret a
          else loop l n a (fun j a =>
            let! s := loop l m #0.0 (fun k s =>
              let! x := mget a k i in
              let! y := mget a k j in
              Ret (s + x * y)) in
            let! d := mget a i i in
            let f := (s / d) * g in
            loop i m a (fun k a =>
              let! y := mget a k j in
              let! x := mget a k i in
              mset a k j (y + f * x)))) in
       loop i m a (fun j a => let! x := mget a j i in mset a j i (x * g))
     else loop i m a (fun j a => mset a j i #0.0)) in
  let! d := mget a i i in
  mset a i i (d + #1).
Definition acc_left (m n : nat) (w : Vec) (a : Mat) : outcome Mat :=
  loop_down n a (acc_left_step m n w).

(** ** hpp:7606-7720  diagonalize the bidiagonal form. *)

(** hpp:7611-7622  test for splitting: [(flag, l)] when the loop is left.
    [w[nm]] is [w[-1]] when [l = 0]. *)
Fixpoint split_test (anorm : F) (w rv1 : Vec) (l : nat) : outcome (bool * nat) :=
  let! r := vget rv1 l in
  if ffabs r + anorm =? anorm then Ret (false, l)
  else match l with
       | O => UB
       | S nm =>
           let! x := vget w nm in
           if ffabs x + anorm =? anorm then Ret (true, l)
           else split_test anorm w rv1 nm
       end.

(** hpp:7638-7644, 7691-7697, 7708-7714: rotate columns [p] and [q] of the first
    [r] rows: (y, z) -> (y c + z s, z c - y s). *)
Definition rotate (r p q : nat) (c s : F) (a : Mat) : outcome Mat :=
  loop 0 r a (fun j a =>
    let! y := mget a j p in
    let! z := mget a j q in
    let! a := mset a j p (y * c + z * s) in
    mset a j q (z * c - y * s)).

(** hpp:7625-7646  cancellation of [rv1[l]] ([flag] set), [nm = l - 1]. *)
Definition cancel (m : nat) (anorm : F) (rv1 : Vec) (l k : nat) (w : Vec) (a : Mat)
  : outcome (Vec * Mat) :=
  match l with
  | O => UB
  | S nm =>
      let! (s, w, a) := loop l (k + 1) (#1.0, w, a) (fun i '(s, w, a) =>
        let! r := vget rv1 i in
        let f := s * r in
        if ffabs f + anorm =? anorm then Ret (s, w, a)
        else
          let! g := vget w i in
          let h := PYTHAG f g in
          let! w := vset w i h in
          let h := #1.0 / h in
          let c := g * h in
          let s := - f * h in
          let! a := rotate m nm i c s a in
          Ret (s, w, a)) in
      Ret (w, a)
  end.

(** hpp:7665-7672  the shift; [nm = k - 1], [z = w[k]]. *)
Definition qr_shift (w rv1 : Vec) (l k : nat) (z : F) : outcome (F * F) :=
  let! x := vget w l in
  let! y := vget w (k - 1) in
  let! g := vget rv1 (k - 1) in
  let! h := vget rv1 k in
  let f := ((y - z) * (y + z) + (g - h) * (g + h)) / (#2.0 * h * y) in
  let g := PYTHAG f #1.0 in
  let f := ((x - z) * (x + z) + h * ((y / (f + DSIGN g f)) - h)) / x in
  Ret (x, f).

(** hpp:7676-7715  one round of the QR sweep; locals [c], [s], [f], [x]. *)
Record qr_state := mkQR {
  q_c : F; q_s : F; q_f : F; q_x : F; q_a : Mat; q_w : Vec; q_rv1 : Vec; q_v : Mat }.
Definition qr_step (m n : nat) (j : nat) (q : qr_state) : outcome qr_state :=
  let i := (j + 1)%nat in
  let c := q_c q in
  let s := q_s q in
  let f := q_f q in
  let x := q_x q in
  let! g := vget (q_rv1 q) i in
  let! y := vget (q_w q) i in
  let h := s * g in
  let g := c * g in
  let z := PYTHAG f h in
  let! rv1 := vset (q_rv1 q) j z in
  let c := f / z in
  let s := h / z in
  let f := x * c + g * s in
  let g := g * c - x * s in
  let h := y * s in
  let y := y * c in
  let! v := rotate n j i c s (q_v q) in
  let z := PYTHAG f h in
  let! w := vset (q_w q) j z in
  let '(c, s) := if ftrue z then let z := #1.0 / z in (f * z, h * z) else (c, s) in
  let f := (c * g) + (s * y) in
  let x := (c * y) - (s * g) in
  let! a := rotate m j i c s (q_a q) in
  Ret (mkQR c s f x a w rv1 v).

Record svd_state := mkSVD { s_a : Mat; s_w : Vec; s_v : Mat; s_rv1 : Vec }.

(** hpp:7649-7658  make the singular value nonnegative. *)
Definition make_nonneg (n k : nat) (z : F) (st : svd_state) : outcome svd_state :=
  if z <? #0.0 then
    let! w := vset (s_w st) k (- z) in
    let! v := loop 0 n (s_v st) (fun j v =>
      let! x := mget v j k in mset v j k (- x)) in
    Ret (mkSVD (s_a st) w v (s_rv1 st))
  else Ret st.

(** one iteration of the [its] loop, hpp:7609-7719. *)
Inductive round_result := Break (st : svd_state) | Continue (st : svd_state) | Return_minus_1.
Definition svd_round (m n : nat) (anorm : F) (k its : nat) (st : svd_state)
  : outcome round_result :=
  let! (flag, l) := split_test anorm (s_w st) (s_rv1 st) k in
  let! (w, a) :=
    (if (flag : bool) then cancel m anorm (s_rv1 st) l k (s_w st) (s_a st)
     else Ret (s_w st, s_a st)) in
  let! z := vget w k in
  if Nat.eqb l k then
    let! st := make_nonneg n k z (mkSVD a w (s_v st) (s_rv1 st)) in Ret (Break st)
  else if Nat.leb 30 its then Ret Return_minus_1
  else
    let! (x, f) := qr_shift w (s_rv1 st) l k z in
    let! q := loop l k (mkQR #1.0 #1.0 f x a w (s_rv1 st) (s_v st)) (qr_step m n) in
    let! rv1 := vset (q_rv1 q) l #0.0 in
    let! rv1 := vset rv1 k (q_f q) in
    let! w := vset (q_w q) k (q_x q) in
    Ret (Continue (mkSVD (q_a q) w (q_v q) rv1)).

(** hpp:7609: [its] runs from [30 - fuel] to 29; [None] is [return (-1)]. *)
Fixpoint its_loop (m n : nat) (anorm : F) (k : nat) (fuel : nat) (st : svd_state)
  : outcome (option svd_state) :=
  match fuel with
  | O => Ret (Some st)
  | S fuel' =>
      let! r := svd_round m n anorm k (30 - fuel) st in
      match r with
      | Break st => Ret (Some st)
      | Continue st => its_loop m n anorm k fuel' st
      | Return_minus_1 => Ret None
      end
  end.

(** hpp:7607-7720 *)
Definition diagonalize (m n : nat) (anorm : F) (st : svd_state) : outcome (option svd_state) :=
  loop_down n (Some st) (fun k o =>
    match o with
    | None => Ret None
    | Some st => its_loop m n anorm k 30 st
    end).

(** hpp:7456-7722  [svdcmp]: return value and the final [a], [w], [v].  ([None]
    from [diagonalize] loses the partial state, which is only reachable by the
    [return (-1)] that never happens: see C-theorem [svdcmp_never_fails].) *)
Definition svdcmp (a : Mat) (w : Vec) (v : Mat) : outcome (Z * Mat * Vec * Mat) :=
  let m := rows a in
  let n := cols a in
  if Nat.ltb m n then Ret ((-1)%Z, a, w, v)
  else
    let! hh := householder m n a w (newVector n) in
    let! v1 := acc_right n (hh_a hh) (hh_rv1 hh) v in
    let! a1 := acc_left m n (hh_w hh) (hh_a hh) in
    let! o := diagonalize m n (hh_anorm hh) (mkSVD a1 (hh_w hh) v1 (hh_rv1 hh)) in
    match o with
    | Some st => Ret (1%Z, s_a st, s_w st, s_v st)
    | None => Ret ((-1)%Z, a1, hh_w hh, v1)
    end.

(** hpp:7724-7748  [svbksb]: the final [x]. *)
Definition svbksb (u : Mat) (w : Vec) (v : Mat) (b x : Vec) : outcome Vec :=
  let m := rows u in
  let n := cols u in
  let! tmp := loop 0 n (newVector n) (fun j tmp =>
    let! wj := vget w j in
    let! s :=
      (if ftrue wj then
         let! s := loop 0 m #0.0 (fun i s =>
           let! uij := mget u i j in
           let! bi := vget b i in
           Ret (s + uij * bi)) in
         Ret (s / wj)
       else Ret #0.0) in
    vset tmp j s) in
  loop 0 n x (fun j x =>
    let! s := loop 0 n #0.0 (fun jj s =>
      let! y := mget v j jj in
      let! t := vget tmp jj in
      Ret (s + y * t)) in
    vset x j s).

(** hpp:7766-7771 *)
Definition wmax (cols : nat) (W : Vec) : outcome F :=
  loop 0 cols #0.0 (fun j wmax =>
    let! wj := vget W j in Ret (if wj >? wmax then wj else wmax)).
(** hpp:7773-7778 *)
Definition cutoff (cols : nat) (thresh : F) (W : Vec) : outcome Vec :=
  loop 0 cols W (fun j W =>
    let! wj := vget W j in
    if wj <? thresh then vset W j #0.0 else Ret W).
(** hpp:7751-7783  [SOLVER::solve]: return value and the final [x]. *)
Definition SOLVER_solve (A : Mat) (b x : Vec) (TOL : F) : outcome (Z * Vec) :=
  let cols := cols A in
  let! (r, A, W, V) := svdcmp A (newVector cols) (newMatrix cols cols) in
  if (r =? 0)%Z then Ret (r, x)
  else
    let! wm := wmax cols W in
    let! W := cutoff cols (TOL * wm) W in
    let! x := svbksb A W V b x in
    Ret (0%Z, x).
(** hpp:7751  default tolerance. *)
Definition SOLVER_TOL : F := #1e-5.

(** ** [class Corrector] *)

(** hpp:7804-7825 and hpp:7828-7848: the three rows written for a patch (or for
    the "0 restriction"), in the 9 columns. *)
Definition corr_rows (p : T3) : Mat :=
  [ [p.[0]; p.[1]; p.[2]; #0; #0; #0; #0; #0; #0];
    [#0; #0; #0; p.[0]; p.[1]; p.[2]; #0; #0; #0];
    [#0; #0; #0; #0; #0; #0; p.[0]; p.[1]; p.[2]] ].
Definition corr_zero : T3 := V3 #0 #0 #0.
Definition corr_matrix (patch : list T3) : Mat :=
  flat_map corr_rows patch ++ corr_rows corr_zero.
(** hpp:7822-7824: [target[i / 3]] is read once per patch. *)
Definition corr_result (patch target : list T3) : outcome Vec :=
  let! ts := mapM (fun i => of_option (nth_error target i)) (seq 0 (length patch)) in
  Ret (flat_map (fun t : T3 => [t.[0]; t.[1]; t.[2]]) ts ++ [#0; #0; #0]).
(** hpp:7794-7852  [Corrector::solve(patch, target)]. *)
Definition Corrector_solve (patch target : list T3) : outcome (Matrix3 F) :=
  let! b := corr_result patch target in
  let! (r, x) := SOLVER_solve (corr_matrix patch) b (newVector 9) SOLVER_TOL in
  M_fromArray x.
(** hpp:7854-7858  [Corrector::solve(patch, light, observer)]; [Patch] is the
    Macbeth table. *)
Definition Corrector_solve_light (Patch : list (Spectrum N)) (patch : list T3)
    (light : Spectrum N) (obs : Observer N) : outcome (Matrix3 F) :=
  Corrector_solve patch (Macbeth_reference N Patch light obs).
(** hpp:7860-7864  [makeGamut]. *)
Definition makeGamut (Patch : list (Spectrum N)) (patch : list T3)
    (light : Spectrum N) (obs : Observer N) : outcome (Gamut F) :=
  let! m := Corrector_solve_light Patch patch light obs in
  Ret (Gamut_of_fromXYZ N m).

(** hpp:1230-1234  [loadGamutFromICCProfileMemory(mem, size)]: a stream is
    built over the data, which is then not looked at.  [None] is a null [mem]. *)
Definition loadGamutFromICCProfileMemory (mem : option (list Z)) : outcome (Gamut F) :=
  let! _ := (match mem with
             | None => Ret MStream.MS_new
             | Some d => MStream.init_data d
             end) in
  Ret (XYZ_gamut N).

End WithNum.
