(** CubedSpec.v - what cubed-spherical coordinates are, written without the code's index
    permutations: six sides with an outward normal and two tangent axes, a point at height h
    over the centre along the normal, and a third coordinate that measures the height between
    the inner and the outer surface of the patch. *)
From Verif Require Import RealBase CubedModel.
Open Scope R_scope.

Definition vadd (u v : v3) : v3 := (get u 0 + get v 0, get u 1 + get v 1, get u 2 + get v 2).
Definition vscale (r : R) (u : v3) : v3 := (r * get u 0, r * get u 1, r * get u 2).
Definition vdot (u v : v3) : R := get u 0 * get v 0 + get u 1 * get v 1 + get u 2 * get v 2.
Definition vcross (u v : v3) : v3 :=
  (get u 1 * get v 2 - get u 2 * get v 1, get u 2 * get v 0 - get u 0 * get v 2,
   get u 0 * get v 1 - get u 1 * get v 0).
Definition vnorm (u : v3) : R := sqrt (vdot u u).

(** Outward normal of each side of the cube and the directions in which X and Y grow. *)
Definition normal (s : side) : v3 :=
  match s with
  | UP => (0, 0, 1) | DOWN => (0, 0, -1)
  | LEFT => (0, -1, 0) | RIGHT => (0, 1, 0)
  | BACK => (-1, 0, 0) | FRONT => (1, 0, 0)
  end.
Definition axisX (s : side) : v3 :=
  match s with
  | UP => (1, 0, 0) | DOWN => (0, 1, 0)
  | LEFT => (1, 0, 0) | RIGHT => (0, 0, 1)
  | BACK => (0, 0, 1) | FRONT => (0, 1, 0)
  end.
Definition axisY (s : side) : v3 :=
  match s with
  | UP => (0, 1, 0) | DOWN => (1, 0, 0)
  | LEFT => (0, 0, 1) | RIGHT => (1, 0, 0)
  | BACK => (0, 1, 0) | FRONT => (0, 0, 1)
  end.
(** The ray of (X,Y), not normalised, and the point at height h on it. *)
Definition ray (s : side) (X Y : R) : v3 :=
  vadd (normal s) (vadd (vscale X (axisX s)) (vscale Y (axisY s))).
Definition point (s : side) (c : v3) (h X Y : R) : v3 := vadd c (vscale h (ray s X Y)).
Definition dist1 (X Y : R) : R := sqrt (1 + X * X + Y * Y).
(** Sign of the side: the flat faces of NS_T_CS, SR_T_CS and OT_T1_CS patches are stored as
    coordinates, the heights are their distances from the centre. *)
Definition sgn (s : side) : R := match s with UP | RIGHT | FRONT => 1 | _ => -1 end.

(** Heights of the inner and outer surfaces above (X,Y): flat faces at height xc, curved
    surfaces at distance R, that is at height R/sqrt(1+X^2+Y^2). *)
Definition inner (P : cs_patch) (X Y : R) (h : R) : Prop :=
  match cs_ty P with
  | OB_T_SCS => cs_xc1 P <> DBL_MAX /\ h = cs_xc1 P \/
                cs_xc1 P = DBL_MAX /\ cs_R1f P X Y = Some (h * dist1 X Y)
  | OT_T_SCS => (cs_xc1 P <> DBL_MAX -> h = cs_xc1 P) /\ cs_R1f P X Y = Some (h * dist1 X Y)
  | NS_T_CS | OT_T1_CS => cs_xc1 P = sgn (cs_side P) * h
  | SR_T_CS => cs_R1f P X Y = Some (h * dist1 X Y)
  | OT_T2_CS => cs_R1 P = h * dist1 X Y
  end.
Definition outer (P : cs_patch) (X Y : R) (h : R) : Prop :=
  match cs_ty P with
  | OB_T_SCS => cs_xc2 P <> DBL_MAX /\ h = cs_xc2 P \/
                cs_xc2 P = DBL_MAX /\ cs_R2f P X Y = Some (h * dist1 X Y)
  | NS_T_CS | OT_T_SCS => cs_R2f P X Y = Some (h * dist1 X Y)
  | SR_T_CS => cs_xc2 P = sgn (cs_side P) * h
  | OT_T1_CS | OT_T2_CS => cs_R2 P = h * dist1 X Y
  end.
(** Height at the fraction Z of the way: linear, or, for the outermost patches, linear in 1/h. *)
Definition outermost (P : cs_patch) : Prop :=
  match cs_ty P with OT_T_SCS | OT_T1_CS | OT_T2_CS => True | _ => False end.
Definition height (P : cs_patch) (h1 h2 Z h : R) : Prop :=
  (outermost P -> / h = (1 - Z) * / h1 + Z * / h2) /\
  (~ outermost P -> h = (1 - Z) * h1 + Z * h2).

(** One coordinate, in its interval, at an end or at least 1e-12 from both ends. *)
Definition clean (x mn mx : R) : Prop :=
  mn <= x <= mx /\ (x = mn \/ mn + ROUND_OFF_ERR <= x) /\ (x = mx \/ x <= mx - ROUND_OFF_ERR).
(** ... and not exactly at the tolerance of the inside test from an end. *)
Definition off_tol (x mn mx e : R) : Prop := x <> mx - e /\ x <> mn + e.
Definition clean3 (X mn mx : v3) : Prop := forall i, (i < 3)%nat -> clean (get X i) (get mn i) (get mx i).
Definition off_tol3 (X mn mx : v3) (e : R) : Prop := forall i, (i < 3)%nat -> off_tol (get X i) (get mn i) (get mx i) e.
(** In the box, up to e. *)
Definition near_box (X mn mx : v3) (e : R) : Prop :=
  forall i, (i < 3)%nat -> get mn i - e < get X i < get mx i + e.

(** A surface differentiable at (X,Y) with partial derivatives p and q, and defined around. *)
Definition surf_diff (F : R -> R -> option R) (X Y r p q : R) : Prop :=
  F X Y = Some r /\
  forall e, 0 < e -> exists dl, 0 < dl /\ forall h k, Rabs h < dl -> Rabs k < dl ->
    exists w, F (X + h) (Y + k) = Some w /\ Rabs (w - r - p * h - q * k) <= e * (Rabs h + Rabs k).
(** x moved by t along the l-th axis. *)
Definition move (x : v3) (l : nat) (t : R) : v3 := put x l (get x l + t).
Definition comp (q : Aq) (X : v3) : R := match q with qa => get X 0 | qb => get X 1 | qc => get X 2 end.
(** which surfaces the coordinates of a patch use, and what the Jacobian assumes of them *)
Definition surfaces_ok (P : cs_patch) (n : jnode) : Prop :=
  let X := get (jn_X n) 0 in let Y := get (jn_X n) 1 in
  let s1 := surf_diff (cs_R1f P) X Y (jn_R1 n) (jn_R1a n) (jn_R1b n) in
  let s2 := surf_diff (cs_R2f P) X Y (jn_R2 n) (jn_R2a n) (jn_R2b n) in
  match cs_ty P with
  | OB_T_SCS => (cs_xc1 P = DBL_MAX -> s1) /\ (cs_xc2 P = DBL_MAX -> s2)
  | NS_T_CS => s2
  | SR_T_CS => s1
  | OT_T1_CS | OT_T2_CS => True
  | OT_T_SCS =>
      cs_R2f P X Y = Some (jn_R2 n) /\ cs_R1f P X Y = Some (jn_R1 n) /\
      exists dl, 0 < dl /\ forall a b, Rabs (a - X) < dl -> Rabs (b - Y) < dl ->
        cs_R2f P a b = Some (jn_R2 n) /\
        (cs_xc1 P = DBL_MAX -> cs_R1f P a b = Some (jn_R1 n)) /\
        (cs_xc1 P <> DBL_MAX -> cs_R1f P a b = Some (cs_xc1 P * dist1 a b))
  end.

(** for all t near 0 *)
Definition near0 (p : R -> Prop) : Prop := exists dl, 0 < dl /\ forall t, Rabs t < dl -> p t.
(** Determinant of the 3x3 matrix of dq/dx^l. *)
Definition det3 (J : Aq -> nat -> R) : R :=
  J qa 0%nat * (J qb 1%nat * J qc 2%nat - J qb 2%nat * J qc 1%nat)
  - J qa 1%nat * (J qb 0%nat * J qc 2%nat - J qb 2%nat * J qc 0%nat)
  + J qa 2%nat * (J qb 0%nat * J qc 1%nat - J qb 1%nat * J qc 0%nat).

(** The unit vector of the polar angles. *)
Definition dir_of (theta phi : R) : v3 := (sin theta * cos phi, sin theta * sin phi, cos theta).
(** zero, or not below the round-off threshold *)
Definition not_tiny (x : R) : Prop := x = 0 \/ ROUND_OFF_ERR <= Rabs x.

(** A patch within reach of x: the coordinates of x in it are in its box up to 1e-7 (and none exactly
    1e-7 inside an end); clipped to the box they describe the point x', at distance dx. *)
Definition clip (x mn mx : R) : R := Rmax mn (Rmin mx x).
Definition clip3 (X mn mx : v3) : v3 := (clip (get X 0) (get mn 0) (get mx 0), clip (get X 1) (get mn 1) (get mx 1), clip (get X 2) (get mn 2) (get mx 2)).
Definition reaches (x : v3) (p : cpatch) (dx : R) : Prop :=
  exists X x', snd (X_of_x x p) = Some X /\ near_box X (pmin p) (pmax p) (/ 10000000) /\ off_tol3 X (pmin p) (pmax p) (/ 10000000) /\
    snd (x_of_X (clip3 X (pmin p) (pmax p)) p) = Some x' /\ dx = vnorm (vadd x (vscale (-1) x')) / sqrt 3.
(** more than 1e-12 away from the directions of the x and y axes *)
Definition off_axes (phi : R) : Prop := forall k, (k <= 4)%nat -> ROUND_OFF_ERR < Rabs (phi - INR k * (PI / 2)).
(** the box of a patch is not empty *)
Definition box_ok (p : cpatch) : Prop := forall i, (i < 3)%nat -> get (pmin p) i <= get (pmax p) i.
