(** SpectralModel.v - Chebyshev transforms, interpolation and derivatives on one line of
    points, and the closed sums of general.c.
    Arrays are functions [nat -> R]; only indices below the size are meaningful.
    The 3-dimensional loops of the code apply these on every line of a patch; the index
    arithmetic is property C27/C45, the line decomposition is property C44. *)
From Verif Require Import RealBase.
From Verif Require Base.
Import Base(outcome, Ok, Abort, UB, obind).
Open Scope R_scope.

(** SIGN[i%2] with SIGN = {1,-1} (fourier_transformation.c:27, general.c:121) *)
Definition SIGN (i : nat) : R := if Nat.even i then 1 else -1.

(** fourier_transformation.c:24-44 rft_1d_ChebyshevExtrema_coeffs, for n >= 1.
    [None]: n-1 is 0 and the angle step is not finite. *)
Definition rft_1d_ChebyshevExtrema_coeffs (values : nat -> R) (n : nat) : option (nat -> R) :=
  let? th0 := fdiv PI (INR (n-1)) in
  let scale := 2 * INR (n-1) in
  Some (fun i =>
    let th := INR i * th0 in
    let c := Rsum (n-2) (fun t => let j := S t in values j * cos (INR j * th)) in
    let c := c * 2 in
    let c := c + (values O + SIGN i * values (n-1)%nat) in
    c / scale).

(** fourier_transformation.c:58-76 rft_1d_ChebyshevNodes_coeffs, for n >= 1 *)
Definition rft_1d_ChebyshevNodes_coeffs (values : nat -> R) (n : nat) : option (nat -> R) :=
  let? th0 := fdiv PI (INR n) in
  let scale := INR n in
  Some (fun i =>
    let th := INR i * th0 in
    Rsum n (fun j => values j * cos (th * (INR j + /2))) / scale).

(** maths_special_functions_lib.h:12-34 Cheb_Tn; the argument n is an int. *)
Definition Cheb_Tn (n : Z) (x : R) : R :=
  if Z.eqb n 0 then 1
  else if EQL x 1 then 1
  else if EQL x (-1) then (if Z.odd n then -1 else 1)
  else let th := acos x in cos (IZR n * th).
(** maths_special_functions_lib.h:39-62 Cheb_Un *)
Definition Cheb_Un (n : Z) (x : R) : R :=
  if Z.eqb n 0 then 1
  else if EQL x 1 then IZR (n + 1)
  else if EQL x (-1) then (if Z.odd n then IZR (- n - 1) else IZR (n + 1))
  else let th := acos x in sin (IZR (n + 1) * th) / sin th.

Definition in_int (z : Z) : bool := ((-2147483648 <=? z) && (z <=? 2147483647))%Z.
(** misc_functions.c:24-47 d2Cheb_Tn_dx2.  The products n*n*(n*n-1) are computed in int: an
    overflow is undefined behaviour.  (x*x-1 is not 0 in the last branch.) *)
Definition d2Cheb_Tn_dx2 (n : Z) (x : R) : outcome R :=
  if (Z.eqb n 0 || Z.eqb n 1)%bool then Ok 0
  else if Z.eqb n 2 then Ok 4
  else if EQL x 1 then
    (if in_int (n*n*(n*n-1)) then Ok (IZR (n*n*(n*n-1)) / 3) else UB)
  else if EQL x (-1) then
    (if Z.odd n then (if in_int (-n*n*(n*n-1)) then Ok (IZR (-n*n*(n*n-1)) / 3) else UB)
     else (if in_int (n*n*(n*n-1)) then Ok (IZR (n*n*(n*n-1)) / 3) else UB))
  else Ok (IZR n * (IZR (n+1) * Cheb_Tn n x - Cheb_Un n x) / (x*x-1)).
(** misc_functions.c:50-53 dCheb_Tn_dx *)
Definition dCheb_Tn_dx (n : Z) (x : R) : R := IZR n * Cheb_Un (n-1) x.

(** interpolations.c:590-603 T_cheb_combined *)
Definition T_cheb_combined (n i : nat) (x : R) : R :=
  if Nat.eqb i 0 then 1
  else if Nat.eqb i (n-1) then Cheb_Tn (Z.of_nat i) x
  else 2 * Cheb_Tn (Z.of_nat i) x.

(** derivatives.c:1064-1076 make_1Dcollocation_ChebExtrema; M_PI/(N-1), N >= 2 *)
Definition colloc_extrema (N i : nat) : R := cos (INR i * (PI / INR (N-1))).
(** derivatives.c:1082-1094 make_1Dcollocation_ChebNodes *)
Definition colloc_nodes (N i : nat) : R := cos ((INR i + /2) * (PI / INR N)).

(** coordinate_systems.c:252-314 initialize_collocation_struct + point_value for the two
    Chebyshev collocations: the i-th point of a line [min,max] with n points. *)
Definition point_extrema (mn mx : R) (n i : nat) : R :=
  let a := /2 * (- mx + mn) in let b := /2 * (mx + mn) in
  let t := INR i * PI / INR (n-1) in a * cos t + b.
Definition point_nodes (mn mx : R) (n i : nat) : R :=
  let a := /2 * (- mx + mn) in let b := /2 * (mx + mn) in
  let t := (INR i + /2) * PI / INR n in a * cos t + b.
(** coordinate_systems.c:361-387 dN_dX, same direction *)
Definition dN_dX (mn mx : R) : R := 2 / (- mx + mn).
(** coordinate_systems.c:587-604 General2ChebyshevExtrema (after its test on the basis) *)
Definition General2ChebyshevExtrema (mn mx X : R) : R :=
  let a := - mx + mn in let b := mx + mn in
  let cheb := (X*2 - b) / a in
  if EQL cheb 1 then 1 else if EQL cheb (-1) then -1 else cheb.

(** interpolations.c:423-443 interpolation_Chebyshev_Tn_X (and _Y, _Z): one line of a patch with n
    points on [mn,mx]; [values] are the field values on the line. *)
Definition interpolation_Chebyshev_Tn (mn mx : R) (n : nat) (values : nat -> R) (pt : R) : option R :=
  let X := General2ChebyshevExtrema mn mx pt in
  let? C := rft_1d_ChebyshevExtrema_coeffs values n in
  Some (Rsum n (fun i => C i * T_cheb_combined n i X)).

(** derivatives.c:658-737 derivative_ChebyshevExtrema_Tn_1stOrder on one line *)
Definition derivative_ChebyshevExtrema_1st (values : nat -> R) (n : nat) : option (nat -> R) :=
  let? C := rft_1d_ChebyshevExtrema_coeffs values n in
  let B := (n-1)%nat in
  Some (fun i =>
    let x := colloc_extrema n i in
    let d := Rsum (B-1) (fun t => let c := S t in INR c * C c * Cheb_Un (Z.of_nat c - 1) x) in
    let d := d * 2 in
    d + INR B * C B * Cheb_Un (Z.of_nat B - 1) x).
(** derivatives.c:744-812 derivative_ChebyshevNodes_Tn_1stOrder on one line *)
Definition derivative_ChebyshevNodes_1st (values : nat -> R) (n : nat) : option (nat -> R) :=
  let? C := rft_1d_ChebyshevNodes_coeffs values n in
  Some (fun i =>
    let x := colloc_nodes n i in
    let d := Rsum (n-1) (fun t => let c := S t in INR c * C c * Cheb_Un (Z.of_nat c - 1) x) in
    d * 2).

(** sum of a loop whose terms may overflow *)
Fixpoint osum (n : nat) (f : nat -> outcome R) : outcome R :=
  match n with O => Ok 0 | S m => obind (osum m f) (fun s => obind (f m) (fun t => Ok (s + t))) end.
(** derivatives.c:819-898 derivative_ChebyshevExtrema_Tn_2ndOrder on one line, at point i (c from 2 to B-1) *)
Definition derivative_ChebyshevExtrema_2nd (values : nat -> R) (n i : nat) : outcome (option R) :=
  match rft_1d_ChebyshevExtrema_coeffs values n with
  | None => Ok None
  | Some C =>
    let B := (n-1)%nat in
    let x := colloc_extrema n i in
    obind (osum (B-2) (fun t => let c := S (S t) in obind (d2Cheb_Tn_dx2 (Z.of_nat c) x) (fun d => Ok (C c * d)))) (fun s =>
    obind (d2Cheb_Tn_dx2 (Z.of_nat B) x) (fun e => Ok (Some (s * 2 + C B * e))))
  end.
(** derivatives.c:905-976 derivative_ChebyshevNodes_Tn_2ndOrder on one line, at point i *)
Definition derivative_ChebyshevNodes_2nd (values : nat -> R) (n i : nat) : outcome (option R) :=
  match rft_1d_ChebyshevNodes_coeffs values n with
  | None => Ok None
  | Some C =>
    let x := colloc_nodes n i in
    obind (osum (n-2) (fun t => let c := S (S t) in obind (d2Cheb_Tn_dx2 (Z.of_nat c) x) (fun d => Ok (C c * d)))) (fun s =>
    Ok (Some (s * 2)))
  end.

(** derivatives.c:567-646 spectral_derivative_1stOrder on a Cartesian patch: one direction, factor dN/dx *)
Definition partial_derivative_extrema (mn mx : R) (n : nat) (values : nat -> R) : option (nat -> R) :=
  let? d := derivative_ChebyshevExtrema_1st values n in Some (fun i => d i * dN_dX mn mx).
Definition partial_derivative_nodes (mn mx : R) (n : nat) (values : nat -> R) : option (nat -> R) :=
  let? d := derivative_ChebyshevNodes_1st values n in Some (fun i => d i * dN_dX mn mx).
(** derivatives.c:399-471 spectral_derivative_2ndOrder on a Cartesian patch: factor (dN/dx)^2 *)
Definition partial_derivative2_extrema (mn mx : R) (n : nat) (values : nat -> R) (i : nat) : outcome (option R) :=
  obind (derivative_ChebyshevExtrema_2nd values n i) (fun d =>
   Ok (let? e := d in Some (e * Pow2 (dN_dX mn mx)))).
Definition partial_derivative2_nodes (mn mx : R) (n : nat) (values : nat -> R) (i : nat) : outcome (option R) :=
  obind (derivative_ChebyshevNodes_2nd values n i) (fun d =>
   Ok (let? e := d in Some (e * Pow2 (dN_dX mn mx)))).

(** ** general.c *)
(** general.c:308-322 sum_1_N_cos_ia *)
Definition sum_1_N_cos_ia (N : nat) (a : R) : option R :=
  if (EQL a 0 || EQL a (2*PI))%bool then Some (INR N)
  else let? q := fdiv (/2 * sin ((INR N + /2) * a)) (sin (/2 * a)) in Some (- /2 + q).

(** general.c:160-202 sum_0_N_dCi_dfj_by_Ti_q.  [Abort]: the two checks; 0.5/(N-1) must be finite *)
Definition sum_0_N_dCi_dfj_by_Ti_q (N j : nat) (q : R) : outcome (option R) :=
  if (ltR q (-1) || ltR 1 q)%bool then Abort
  else if Nat.leb N j then Abort
  else Ok (
    let? scale := fdiv (/2) (INR (N-1)) in
    let theta := acos q in
    let? sum :=
      if Nat.eqb j 0 then
        let? s := sum_1_N_cos_ia (N-2) theta in
        Some (1 + cos (INR (N-1) * theta) + 2 * s)
      else if Nat.eqb j (N-1) then
        let? s1 := sum_1_N_cos_ia (N-2) (theta + PI) in
        let? s2 := sum_1_N_cos_ia (N-2) (theta - PI) in
        Some (1 + SIGN j * cos (INR (N-1) * theta) + s1 + s2)
      else
        let? alpha := fdiv (INR j * PI) (INR (N-1)) in
        let? s1 := sum_1_N_cos_ia (N-2) (theta + alpha) in
        let? s2 := sum_1_N_cos_ia (N-2) (theta - alpha) in
        Some ((1 + SIGN j * cos (INR (N-1) * theta) + s1 + s2) * 2) in
    Some (sum * scale)).
