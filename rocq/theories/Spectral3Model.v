(** Spectral3Model.v - coefficients, interpolation, filtering and integration on a whole patch (three directions),
    the coordinate Jacobians of coordinate_systems.c, and the 1-d quadratures of integration.c.
    Arrays over the points of a patch are functions of the linear index. *)
From Verif Require Import RealBase SpectralModel.
From Verif Require Base IndexModel.
Import Base(outcome, Ok, Abort, UB, obind).
Import IndexModel(ijk, coeffs_patch_1d).
Open Scope R_scope.

(** number of points, [min] and [max] per direction: patch->n, patch->min, patch->max (manifold_lib.h) *)
Record box := mkBox { n0 : nat; n1 : nat; n2 : nat; mn0 : R; mx0 : R; mn1 : R; mx1 : R; mn2 : R; mx2 : R }.
Definition at_ (b : box) (i j k : nat) : nat := ijk (n0 b) (n1 b) (n2 b) i j k.

(** the 1-d transform handed to the line loops, fourier_transformation.c:24-44; only called with n >= 2 here *)
Definition FT (n : nat) (v : nat -> R) (i : nat) : R :=
  match rft_1d_ChebyshevExtrema_coeffs v n with Some C => C i | None => 0 end.
(** find_1d_coeffs_in_patch (field.c:556-590) for the basis Chebyshev_Tn_BASIS on Chebyshev_Extrema.
    [None]: a direction with one point: PI/(n-1) is not finite. *)
Definition n_in (b : box) (d : nat) : nat := match d with 0 => n0 b | 1 => n1 b | _ => n2 b end.
Definition find_1d_coeffs (b : box) (d : nat) (v : nat -> R) : outcome (option (nat -> R)) :=
  if Nat.ltb (n_in b d) 2 then Ok None
  else obind (coeffs_patch_1d R FT (n0 b) (n1 b) (n2 b) d v (fun _ => 0)) (fun c => Ok (Some c)).
(** make_coeffs_1d (field.c:206-228), no cached coefficients (the cache is property C41/C42) *)
Definition make_coeffs_1d (b : box) (d : nat) (v : nat -> R) : outcome (option (nat -> R)) := find_1d_coeffs b d v.
Definition then_1d (b : box) (d : nat) (r : outcome (option (nat -> R))) : outcome (option (nat -> R)) :=
  obind r (fun o => match o with Some c => find_1d_coeffs b d c | None => Ok None end).
(** make_coeffs_2d (field.c:234-296); the same direction twice stops the program *)
Definition make_coeffs_2d (b : box) (d1 d2 : nat) (v : nat -> R) : outcome (option (nat -> R)) :=
  if Nat.eqb d1 d2 then Abort else then_1d b d2 (find_1d_coeffs b d1 v).
(** make_coeffs_3d (field.c:302-361) *)
Definition make_coeffs_3d (b : box) (v : nat -> R) : outcome (option (nat -> R)) :=
  then_1d b 2 (then_1d b 1 (find_1d_coeffs b 0 v)).
Definition use (r : outcome (option (nat -> R))) (f : (nat -> R) -> R) : outcome (option R) :=
  obind r (fun o => Ok (match o with Some c => Some (f c) | None => None end)).

(** Tx, Ty, Tz: T_cheb_combined for the direction (interpolations.h:13-15) *)
Definition Tx (b : box) (i : nat) (X : R) : R := T_cheb_combined (n0 b) i X.
Definition Ty (b : box) (j : nat) (Y : R) : R := T_cheb_combined (n1 b) j Y.
Definition Tz (b : box) (k : nat) (Z : R) : R := T_cheb_combined (n2 b) k Z.
(** interpolations.c:423-443 interpolation_Chebyshev_Tn_X at the constant indices J, K *)
Definition interpolation_X (b : box) (v : nat -> R) (x : R) (J K : nat) : outcome (option R) :=
  let X := General2ChebyshevExtrema (mn0 b) (mx0 b) x in
  use (make_coeffs_1d b 0 v) (fun C => Rsum (n0 b) (fun i => C (at_ b i J K) * Tx b i X)).
(** interpolations.c:448-466 _Y *)
Definition interpolation_Y (b : box) (v : nat -> R) (y : R) (I K : nat) : outcome (option R) :=
  let Y := General2ChebyshevExtrema (mn1 b) (mx1 b) y in
  use (make_coeffs_1d b 1 v) (fun C => Rsum (n1 b) (fun j => C (at_ b I j K) * Ty b j Y)).
(** interpolations.c:471-489 _Z *)
Definition interpolation_Z (b : box) (v : nat -> R) (z : R) (I J : nat) : outcome (option R) :=
  let Z := General2ChebyshevExtrema (mn2 b) (mx2 b) z in
  use (make_coeffs_1d b 2 v) (fun C => Rsum (n2 b) (fun k => C (at_ b I J k) * Tz b k Z)).
(** interpolations.c:494-513 _XY *)
Definition interpolation_XY (b : box) (v : nat -> R) (x y : R) (K : nat) : outcome (option R) :=
  let X := General2ChebyshevExtrema (mn0 b) (mx0 b) x in
  let Y := General2ChebyshevExtrema (mn1 b) (mx1 b) y in
  use (make_coeffs_2d b 0 1 v) (fun C =>
    Rsum (n0 b) (fun i => Rsum (n1 b) (fun j => C (at_ b i j K) * Tx b i X * Ty b j Y))).
(** interpolations.c:518-537 _XZ *)
Definition interpolation_XZ (b : box) (v : nat -> R) (x z : R) (J : nat) : outcome (option R) :=
  let X := General2ChebyshevExtrema (mn0 b) (mx0 b) x in
  let Z := General2ChebyshevExtrema (mn2 b) (mx2 b) z in
  use (make_coeffs_2d b 0 2 v) (fun C =>
    Rsum (n0 b) (fun i => Rsum (n2 b) (fun k => C (at_ b i J k) * Tx b i X * Tz b k Z))).
(** interpolations.c:542-560 _YZ *)
Definition interpolation_YZ (b : box) (v : nat -> R) (y z : R) (I : nat) : outcome (option R) :=
  let Y := General2ChebyshevExtrema (mn1 b) (mx1 b) y in
  let Z := General2ChebyshevExtrema (mn2 b) (mx2 b) z in
  use (make_coeffs_2d b 1 2 v) (fun C =>
    Rsum (n1 b) (fun j => Rsum (n2 b) (fun k => C (at_ b I j k) * Ty b j Y * Tz b k Z))).
(** interpolations.c:564-588 _XYZ *)
Definition interpolation_XYZ (b : box) (v : nat -> R) (x y z : R) : outcome (option R) :=
  let X := General2ChebyshevExtrema (mn0 b) (mx0 b) x in
  let Y := General2ChebyshevExtrema (mn1 b) (mx1 b) y in
  let Z := General2ChebyshevExtrema (mn2 b) (mx2 b) z in
  use (make_coeffs_3d b v) (fun C =>
    Rsum (n0 b) (fun i => let tx := Tx b i X in
    Rsum (n1 b) (fun j => let Tx_Ty := tx * Ty b j Y in
    Rsum (n2 b) (fun k => C (at_ b i j k) * Tx_Ty * Tz b k Z)))).

(** ** spectral filter (spectral_filter.c) *)
(** spectral_filter.c:106-133 erfclog.  [erfc]: the C library function, a parameter here.  log(1-den) with 0 < den < 1. *)
Definition erfclog (erfc : R -> R) (th : R) (p : Z) : R :=
  let th_bar := Rabs th - /2 in
  let den := 4 * Pow2 th_bar in
  if ltR th ROUND_OFF_ERR then 1
  else if ltR (1 - ROUND_OFF_ERR) th then 0
  else if ltR den ROUND_OFF_ERR then /2
  else
    let tmp := - ln (1 - den) in
    let tmp := tmp / den in
    let tmp := sqrt tmp in
    let tmp := tmp * (2 * sqrt (IZR p) * th_bar) in
    /2 * erfc tmp.
(** i/(n-1.) ; n >= 2 here *)
Definition th_of (n i : nat) : R := INR i / (INR n - 1).
(** spectral_filter.c:29-86 filter_erfclog: new values at the point (i',j',k') and new coefficients *)
Definition filtered_coeffs (erfc : R -> R) (p : Z) (b : box) (C : nat -> R) (i j k : nat) : R :=
  C (at_ b i j k) * (erfclog erfc (th_of (n0 b) i) p * erfclog erfc (th_of (n1 b) j) p * erfclog erfc (th_of (n2 b) k) p).
Definition filter_erfclog (erfc : R -> R) (p : Z) (b : box) (v : nat -> R) : outcome (option (nat -> nat -> nat -> R)) :=
  obind (make_coeffs_3d b v) (fun o => Ok (match o with None => None | Some C => Some (fun i' j' k' =>
    let X := General2ChebyshevExtrema (mn0 b) (mx0 b) (point_extrema (mn0 b) (mx0 b) (n0 b) i') in
    let Y := General2ChebyshevExtrema (mn1 b) (mx1 b) (point_extrema (mn1 b) (mx1 b) (n1 b) j') in
    let Z := General2ChebyshevExtrema (mn2 b) (mx2 b) (point_extrema (mn2 b) (mx2 b) (n2 b) k') in
    Rsum (n0 b) (fun i => let tx := Tx b i X in
    Rsum (n1 b) (fun j => let ty := Ty b j Y in
    Rsum (n2 b) (fun k => filtered_coeffs erfc p b C i j k * tx * ty * Tz b k Z)))) end)).

(** ** coordinate Jacobians *)
(** manifold_lib.h:79-93 Dd_T *)
Inductive Dd := N_ (d : nat) | x_ (d : nat) | a_ (d : nat).   (* d = 0, 1, 2 *)
(** d(patch coordinate)/d(x,y,z) and back at one point, supplied by the patch: patch->JacobianT->j *)
Definition JT := Dd -> Dd -> R.
Definition dir (q : Dd) : nat := match q with N_ d => d | x_ d => d | a_ d => d end.
Definition Dd_eqb (p q : Dd) : bool :=
  match p, q with N_ a, N_ b => Nat.eqb a b | x_ a, x_ b => Nat.eqb a b | a_ a, a_ b => Nat.eqb a b | _, _ => false end.
(** cartesian_coordinate.c:43-55 JT_Cartesian_patch *)
Definition JT_Cartesian : JT := fun q2 q1 => if Nat.eqb (dir q2) (dir q1) then 1 else 0.
Definition mn_of (b : box) (d : nat) : R := match d with 0 => mn0 b | 1 => mn1 b | _ => mn2 b end.
Definition mx_of (b : box) (d : nat) : R := match d with 0 => mx0 b | 1 => mx1 b | _ => mx2 b end.
(** coordinate_systems.c:361-387 dN_dX *)
Definition dN_dXd (b : box) (q2 q1 : Dd) : R :=
  if Nat.eqb (dir q2) (dir q1) then SpectralModel.dN_dX (mn_of b (dir q1)) (mx_of b (dir q1)) else 0.
(** coordinate_systems.c:392-431 dN_dq, basis Chebyshev_Tn_BASIS.  (q2 is a N.) *)
Definition dN_dq (j : JT) (b : box) (q2 q1 : Dd) : R :=
  match q1 with
  | x_ _ => dN_dXd b q2 (a_ (dir q2)) * j (a_ (dir q2)) q1
  | _ => dN_dXd b q2 q1
  end.
(** integration.c:617-633 J_xyzN0N1N2 and the nine entries of coordinate_systems.c:443-451.
    [None]: the determinant is 0. *)
Definition a_entry (j : JT) (b : box) (r c : nat) : R := dN_dq j b (N_ r) (x_ c).
Definition det_dN_dx (j : JT) (b : box) : R :=
  let a := a_entry j b in
  a 0%nat 0%nat * a 1%nat 1%nat * a 2%nat 2%nat - a 0%nat 0%nat * a 1%nat 2%nat * a 2%nat 1%nat -
  a 0%nat 1%nat * a 1%nat 0%nat * a 2%nat 2%nat + a 0%nat 1%nat * a 1%nat 2%nat * a 2%nat 0%nat +
  a 0%nat 2%nat * a 1%nat 0%nat * a 2%nat 1%nat - a 0%nat 2%nat * a 1%nat 1%nat * a 2%nat 0%nat.
Definition J_xyzN0N1N2 (j : JT) (b : box) : option R := fdiv 1 (det_dN_dx j b).
(** coordinate_systems.h:3-11 ADJ_rc *)
Definition ADJ (a : nat -> nat -> R) (r c : nat) : R :=
  match r, c with
  | 0, 0 => a 1%nat 1%nat * a 2%nat 2%nat - a 1%nat 2%nat * a 2%nat 1%nat
  | 0, 1 => - a 0%nat 1%nat * a 2%nat 2%nat + a 0%nat 2%nat * a 2%nat 1%nat
  | 0, _ => a 0%nat 1%nat * a 1%nat 2%nat - a 0%nat 2%nat * a 1%nat 1%nat
  | 1, 0 => - a 1%nat 0%nat * a 2%nat 2%nat + a 1%nat 2%nat * a 2%nat 0%nat
  | 1, 1 => a 0%nat 0%nat * a 2%nat 2%nat - a 0%nat 2%nat * a 2%nat 0%nat
  | 1, _ => - a 0%nat 0%nat * a 1%nat 2%nat + a 0%nat 2%nat * a 1%nat 0%nat
  | _, 0 => a 1%nat 0%nat * a 2%nat 1%nat - a 1%nat 1%nat * a 2%nat 0%nat
  | _, 1 => - a 0%nat 0%nat * a 2%nat 1%nat + a 0%nat 1%nat * a 2%nat 0%nat
  | _, _ => a 0%nat 0%nat * a 1%nat 1%nat - a 0%nat 1%nat * a 1%nat 0%nat
  end.
(** coordinate_systems.c:436-515 dq_dN: d(x,y,z)/d(N0,N1,N2); other first arguments stop the program *)
Definition dq_dN (j : JT) (b : box) (q2 q1 : Dd) : outcome (option R) :=
  match q2 with
  | x_ r => Ok (fdiv (ADJ (a_entry j b) r (dir q1)) (det_dN_dx j b))
  | _ => Abort
  end.
(** coordinate_systems.c:335-356 dq2_dq1 *)
Definition dq2_dq1 (j : JT) (b : box) (q2 q1 : Dd) : outcome (option R) :=
  if Dd_eqb q2 q1 then Ok (Some 1)
  else match q2, q1 with
  | N_ _, _ => Ok (Some (dN_dq j b q2 q1))
  | _, N_ _ => dq_dN j b q2 q1
  | _, _ => Ok (Some (j q2 q1))
  end.

(** ** spectral integration (integration.c) *)
(** integration.c:596-606 Int_ChebTn_OPTM *)
Definition Int_ChebTn_OPTM (n N : nat) : R :=
  if Nat.eqb n 0 then 2
  else if Nat.eqb n (N-1) then -2 / (Pow2 (INR n) - 1)
  else -4 / (Pow2 (INR n) - 1).
(** integration.c:564-590 integral_conventional_ChebTn *)
Definition integral_conventional_ChebTn (N n : nat) (th_i th_f : R) : R :=
  let Int :=
    if Nat.eqb n 0 then cos th_f - cos th_i
    else if Nat.eqb n 1 then (cos (2*th_f) - cos (2*th_i)) / 4
    else (- cos th_f * cos (th_f * INR n) + cos th_i * cos (th_i * INR n)
          - INR n * sin th_f * sin (th_f * INR n) + INR n * sin th_i * sin (th_i * INR n)) / (Pow2 (INR n) - 1) in
  if (Nat.eqb n 0 || Nat.eqb n (N-1))%bool then Int else 2 * Int.
(** the six metric components at a point, I->g00 ... I->g22 *)
Record metric := mkG { g00 : R; g01 : R; g02 : R; g11 : R; g12 : R; g22 : R }.
(** the determinant in integration.c:392-393 (and 454-455) *)
Definition det_g (g : metric) : R :=
  g00 g * g11 g * g22 g - g00 g * Pow2 (g12 g) - Pow2 (g01 g) * g22 g + 2 * g01 g * g02 g * g12 g - Pow2 (g02 g) * g11 g.
(** the integrand loop, integration.c:383-395: f*sqrt(g)*J. [None]: square root of a negative number or 1/0.
    The loop runs over all points: one bad point and the sum is not a number. *)
Definition integrand_at (jt : nat -> JT) (b : box) (f : nat -> R) (g : nat -> metric) (l : nat) : option R :=
  if ltR (det_g (g l)) 0 then None
  else let? J := J_xyzN0N1N2 (jt l) b in Some (f l * sqrt (det_g (g l)) * J).
Fixpoint all_points {A} (n : nat) (F : nat -> option A) (d : nat -> A) : option (nat -> A) :=
  match n with
  | O => Some d
  | S m => match all_points m F d, F m with
           | Some e, Some x => Some (fun l => if Nat.eqb l m then x else e l)
           | _, _ => None
           end
  end.
Definition integrand (jt : nat -> JT) (b : box) (f : nat -> R) (g : nat -> metric) : option (nat -> R) :=
  all_points (n0 b * n1 b * n2 b) (integrand_at jt b f g) (fun _ => 0).
Definition oR (F : option (nat -> R)) (k : (nat -> R) -> outcome (option R)) : outcome (option R) :=
  match F with Some v => k v | None => Ok None end.
(** for (i = 0; i < n; i += 2): the number of even indices below n is (n+1)/2 *)
Definition even_sum (n : nat) (f : nat -> R) : R := Rsum (Nat.div2 (S n)) (fun t => f (2 * t)%nat).
(** integration.c:370-416 f_xyz_whole_dV_Cheb_Ext_Spec *)
Definition f_xyz_whole_dV (jt : nat -> JT) (b : box) (f : nat -> R) (g : nat -> metric) : outcome (option R) :=
  oR (integrand jt b f g) (fun F =>
  use (make_coeffs_3d b F) (fun C =>
    let sum := even_sum (n0 b) (fun i => even_sum (n1 b) (fun j => even_sum (n2 b) (fun k =>
       C (at_ b i j k) * Int_ChebTn_OPTM i (n0 b) * Int_ChebTn_OPTM j (n1 b) * Int_ChebTn_OPTM k (n2 b)))) in
    sum * -1)).
(** integration.c:421-477 f_xyz_interval_dV_Cheb_Ext_Spec: from point Ii to point If, and so on *)
Definition th_at (I n : nat) : R := INR I * PI / INR (n-1).
Definition f_xyz_interval_dV (jt : nat -> JT) (b : box) (f : nat -> R) (g : nat -> metric) (Ii If Ji Jf Ki Kf : nat) : outcome (option R) :=
  oR (integrand jt b f g) (fun F =>
  use (make_coeffs_3d b F) (fun C =>
    Rsum (n0 b) (fun i => Rsum (n1 b) (fun j => Rsum (n2 b) (fun k =>
       C (at_ b i j k) *
       integral_conventional_ChebTn (n0 b) i (th_at Ii (n0 b)) (th_at If (n0 b)) *
       integral_conventional_ChebTn (n1 b) j (th_at Ji (n1 b)) (th_at Jf (n1 b)) *
       integral_conventional_ChebTn (n2 b) k (th_at Ki (n2 b)) (th_at Kf (n2 b))))))).

(** det_h_xyzN0N1.c, det_h_xyzN0N2.c, det_h_xyzN1N2.c: det of the metric induced on a surface, from the two tangents u, w
    (u = dx/dNa, w = dx/dNb, three components each) *)
Definition det_h (g : metric) (u w : nat -> R) : R :=
  let u0 := u 0%nat in let u1 := u 1%nat in let u2 := u 2%nat in
  let w0 := w 0%nat in let w1 := w 1%nat in let w2 := w 2%nat in
  let h00 := Pow2 u0 * g00 g + 2 * u0 * u1 * g01 g + 2 * u0 * u2 * g02 g + Pow2 u1 * g11 g + 2 * u1 * u2 * g12 g + Pow2 u2 * g22 g in
  let h01 := u0 * w0 * g00 g + u0 * w1 * g01 g + u0 * w2 * g02 g + u1 * w0 * g01 g + u1 * w1 * g11 g + u1 * w2 * g12 g
             + u2 * w0 * g02 g + u2 * w1 * g12 g + u2 * w2 * g22 g in
  let h10 := h01 in
  let h11 := Pow2 w0 * g00 g + 2 * w0 * w1 * g01 g + 2 * w0 * w2 * g02 g + Pow2 w1 * g11 g + 2 * w1 * w2 * g12 g + Pow2 w2 * g22 g in
  h00 * h11 - h01 * h10.
(** dx_dNd_U0..U2 = dq2_dq1(patch,_x_/_y_/_z_,_Nd_,ijk) *)
Definition tangent (j : JT) (b : box) (d : nat) : option (nat -> R) :=
  let t c := match dq2_dq1 j b (x_ c) (N_ d) with Ok o => o | _ => None end in
  let? t0 := t 0%nat in let? t1 := t 1%nat in let? t2 := t 2%nat in
  Some (fun c => match c with 0 => t0 | 1 => t1 | _ => t2 end).
(** the value stored in the integrand on the surface, integration.c:508, 529, 550 *)
Definition surface_at (jt : nat -> JT) (b : box) (f : nat -> R) (g : nat -> metric) (da db : nat) (l : nat) : option R :=
  let? u := tangent (jt l) b da in
  let? w := tangent (jt l) b db in
  if ltR (det_h (g l) u w) 0 then None else Some (f l * sqrt (det_h (g l) u w)).
(** integration.c:484-560 f_xyz_dS_Cheb_Ext_Spec. [face] = 0, 1, 2: X_surface, Y_surface, Z_surface; [I] the constant index.
    Only the points of the surface are filled, the others keep 0 (calloc) and do not enter the 2-d coefficients used.
    The two directions of make_coeffs_2d are those of the surface. *)
Definition surface_integrand (jt : nat -> JT) (b : box) (f : nat -> R) (g : nat -> metric) (face I da db : nat) : option (nat -> R) :=
  all_points (n0 b * n1 b * n2 b) (fun l =>
    let k := (l mod n2 b)%nat in let j := (l / n2 b mod n1 b)%nat in let i := (l / n2 b / n1 b)%nat in
    if Nat.eqb (match face with 0 => i | 1 => j | _ => k end) I then surface_at jt b f g da db l else Some 0) (fun _ => 0).
Definition f_xyz_dS (jt : nat -> JT) (b : box) (f : nat -> R) (g : nat -> metric) (face I : nat) : outcome (option R) :=
  match face with
  | 0 => oR (surface_integrand jt b f g 0 I 1 2) (fun F => use (make_coeffs_2d b 1 2 F) (fun C =>
           even_sum (n1 b) (fun j => even_sum (n2 b) (fun k => C (at_ b I j k) * Int_ChebTn_OPTM j (n1 b) * Int_ChebTn_OPTM k (n2 b)))))
  | 1 => oR (surface_integrand jt b f g 1 I 0 2) (fun F => use (make_coeffs_2d b 0 2 F) (fun C =>
           even_sum (n0 b) (fun i => even_sum (n2 b) (fun k => C (at_ b i I k) * Int_ChebTn_OPTM i (n0 b) * Int_ChebTn_OPTM k (n2 b)))))
  | 2 => oR (surface_integrand jt b f g 2 I 0 1) (fun F => use (make_coeffs_2d b 0 1 F) (fun C =>
           even_sum (n0 b) (fun i => even_sum (n1 b) (fun j => C (at_ b i j I) * Int_ChebTn_OPTM i (n0 b) * Int_ChebTn_OPTM j (n1 b)))))
  | _ => Abort
  end.

(** ** quadrature rules on a line *)
(** integration.c:235-257 Composite_Simpson_1D; n is unsigned; n = 1 divides by n-1 = 0 (and reads f[0] twice) *)
Definition Composite_Simpson_1D (a b : R) (n : nat) (f : nat -> R) : outcome (option R) :=
  if negb (Nat.eqb (n mod 2) 1) then Abort
  else Ok (
    let? h := fdiv (b - a) (INR (n-1)) in
    let i0 := f O + f (n-1)%nat in
    let i2 := Rsum (n-2) (fun t => if Nat.eqb ((S t) mod 2) 0 then f (S t) else 0) in
    let i1 := Rsum (n-2) (fun t => if Nat.eqb ((S t) mod 2) 0 then 0 else f (S t)) in
    Some (h * (i0 + 2*i2 + 4*i1) / 3)).
(** misc_functions.c:10-18 Factorial: int arithmetic *)
Fixpoint Factorial_nat (n : nat) : outcome Z :=
  match n with
  | O => Ok 1%Z
  | S m => obind (Factorial_nat m) (fun z => let r := (Z.of_nat n * z)%Z in if in_int r then Ok r else UB)
  end.
Definition Factorial (n : Z) : outcome Z := if Z.ltb n 0 then Abort else Factorial_nat (Z.to_nat n).
(** integration.c:282-287, the sum of GaussQuadrature_ChebyshevExtrema, n >= 2 (n is unsigned: n-2 wraps for n < 2) *)
Definition GQ_ChebyshevExtrema_sum (n : nat) (f : nat -> R) : R :=
  let w := PI / INR (n-1) in
  let i0 := Rsum (n-2) (fun t => f (S t)) in
  let i0 := i0 + (f O + f (n-1)%nat) / 2 in
  i0 * w.
(** integration.c:267-289 GaussQuadrature_ChebyshevExtrema.  The error estimate is computed first, with Factorial(2n). *)
Definition GaussQuadrature_ChebyshevExtrema (n : nat) (f : nat -> R) : outcome R :=
  obind (Factorial (2 * Z.of_nat n)) (fun _ => Ok (GQ_ChebyshevExtrema_sum n f)).
(** integration.c:297-329 GaussQuadrature_Lobatto; [w] is the weight at the i-th root (a table lookup, not modelled).
    Factorial(2n-2) and Factorial(n-2) enter the error estimate. *)
Definition GaussQuadrature_Lobatto (w : nat -> R) (n : nat) (f : nat -> R) : outcome R :=
  obind (Factorial (2 * Z.of_nat n - 2)) (fun _ =>
  obind (Factorial (Z.of_nat n - 2)) (fun _ =>
  Ok (Rsum (n-2) (fun t => w t * f (S t)) + 2 * (f O + f (n-1)%nat) / (INR n * (INR n - 1))))).
(** integration.c:337-365 GaussQuadrature_Legendre *)
Definition GaussQuadrature_Legendre (w : nat -> R) (n : nat) (f : nat -> R) : outcome R :=
  obind (Factorial (2 * Z.of_nat n)) (fun _ =>
  obind (Factorial (Z.of_nat n)) (fun _ => Ok (Rsum n (fun i => w i * f i)))).
