(** Interp1Model.v - one-dimensional interpolation: Neville, natural cubic spline, Hermite, and the finite differences of
    Fornberg.  Arrays of length N are functions nat -> R read below N only; a double that is not finite is [None]. *)
From Verif Require Import RealBase.
From Verif Require Base.
Import Base(outcome, Ok, Abort, UB, obind).
Open Scope R_scope.

(** ** Neville, interpolations.c:312-370 *)
(** 357-359: q[i][j]; the loops fill the table row by row, an entry uses q[i][j-1] and q[i-1][j-1] *)
Fixpoint neville_q (x f : nat -> R) (h : R) (j i : nat) : option R :=
  match j with
  | O => Some (f i)
  | S k => let? a := neville_q x f h k i in let? b := neville_q x f h k (i-1) in
           fdiv ((h - x (i - S k)%nat) * a - (h - x i) * b) (x i - x (i - S k)%nat)
  end.
(** 326-348: the arrays actually used when only [mx] of N points are asked for *)
Definition sub_array (y : nat -> R) (N mx : nat) : nat -> R :=
  let s := (N / mx)%nat in
  fun i => if Nat.eqb i (mx - 1) then y (mx - 1)%nat else if Nat.eqb i 0 then y 0%nat else y (i * s)%nat.
Definition neville_subsamples (N mx : nat) : bool := negb (Nat.eqb mx 0) && Nat.ltb mx N && Nat.ltb 10 N.
(** the whole function; N = 0 would read q[-1] *)
Definition interpolation_Neville_1d (x f : nat -> R) (N mx : nat) (h : R) : outcome (option R) :=
  let '(x, f, M) := if neville_subsamples N mx then (sub_array x N mx, sub_array f N mx, mx) else (x, f, N) in
  match M with O => UB | S m => Ok (neville_q x f h m m) end.

(** ** natural cubic spline *)
Record spline := mkSpline { sN : nat; sx : nat -> R; sf : nat -> R }.
Definition rev_array (N : nat) (y : nat -> R) : nat -> R := fun i => y (N - 1 - i)%nat.
(** interpolations.c:129-158 order_arrays_natural_cubic_spline_1d (691-734 for Hermite) *)
Definition order_arrays (N : nat) (x f : nat -> R) : outcome spline :=
  match N with
  | O => Abort
  | S m => if EQL (x 0%nat) (x m) then Abort
           else if GRT (x 0%nat) (x m) then Ok (mkSpline N (rev_array N x) (rev_array N f)) else Ok (mkSpline N x f)
  end.
(** 161-225 find_coeffs_natural_cubic_spline_1d; a = f, n = N-1 *)
Definition hh (s : spline) (i : nat) : R := sx s (S i) - sx s i.
Definition al (s : spline) (i : nat) : option R :=
  let? u := fdiv (3 * (sf s (S i) - sf s i)) (hh s i) in let? v := fdiv (3 * (sf s i - sf s (i-1)%nat)) (hh s (i-1)) in Some (u - v).
(** 184-192: (mu[i], z[i]) for 0 <= i < n *)
Fixpoint mz (s : spline) (i : nat) : option (R * R) :=
  match i with
  | O => Some (0, 0)
  | S k => let? (m, z) := mz s k in let l := 2 * (sx s (S i) - sx s k) - hh s k * m in
           let? mu := fdiv (hh s i) l in let? a := al s i in let? z' := fdiv (a - hh s k * z) l in Some (mu, z')
  end.
(** 193-208: c[n-k] *)
Fixpoint c_down (s : spline) (n k : nat) : option R :=
  match k with
  | O => Some 0
  | S j => let? c := c_down s n j in let? (m, z) := mz s (n - k) in Some (z - m * c)
  end.
Definition coef_c (s : spline) (i : nat) : option R := let n := (sN s - 1)%nat in c_down s n (n - i).
(** 201-202, 206-207 *)
Definition coef_b (s : spline) (i : nat) : option R :=
  let? c := coef_c s i in let? c1 := coef_c s (S i) in
  let? q := fdiv (sf s (S i) - sf s i) (hh s i) in Some (q - hh s i * (c1 + 2 * c) / 3).
Definition coef_d (s : spline) (i : nat) : option R :=
  let? c := coef_c s i in let? c1 := coef_c s (S i) in fdiv ((c1 - c) / 3) (hh s i).
(** what an evaluation returns: DBL_MAX (out of the domain) or a computed double *)
Inductive sres := Dmax | Num (v : option R).
(** 267-275: first segment i with x[i] <= h <= x[i+1] up to round-off *)
Fixpoint find_segment (s : spline) (h : R) (i left : nat) : option nat :=
  match left with
  | O => None
  | S k => if GRTEQL h (sx s i) && LSSEQL h (sx s (S i)) then Some i else find_segment s h (S i) k
  end.
(** interpolations.c:252-290 interpolation_natural_cubic_spline_1d *)
Definition interpolation_spline (s : spline) (h : R) : sres :=
  match find_segment s h 0 (sN s - 1) with
  | None => Dmax
  | Some i => Num (let? b := coef_b s i in let? c := coef_c s i in let? d := coef_d s i in
      Some (sf s i + b * (h - sx s i) + c * Pow2 (h - sx s i) + d * (h - sx s i) ^ 3))
  end.
(** 647-683 derivative_natural_cubic_spline_1d *)
Definition derivative_spline (s : spline) (h : R) : sres :=
  match find_segment s h 0 (sN s - 1) with
  | None => Dmax
  | Some i => Num (let? b := coef_b s i in let? c := coef_c s i in let? d := coef_d s i in
      Some (b + 2 * c * (h - sx s i) + 3 * d * Pow2 (h - sx s i)))
  end.

(** ** finite differences, Calculus/derivatives.c:1101-1218 finite_difference_Fornberg *)
(** 1126-1133: first segment with x[i] <= x0 <= x[i+1]; Nx-1 when there is none (the test for UINT_MAX never fires) *)
Fixpoint fd_segment (x : nat -> R) (x0 : R) (i left : nat) : nat :=
  match left with
  | O => i
  | S k => if leR (x i) x0 && leR x0 (x (S i)) then i else fd_segment x x0 (S i) k
  end.
(** 1155-1168: first point of the stencil.  Both shifting loops together: offset = indx - N/2, raised to 0, then lowered so
    that offset + N <= Nx - 1 *)
Definition fd_offset (indx N Nx : nat) : nat := Nat.min (indx - N / 2) (Nx - 1 - N).
(** 1171-1207: delta^m_{n,nu} (an entry with m > n is read only after it was set to 0).  [dl n] is the pair of delta[.][n][.] (m then nu) and c2 of step n (c1 of step n+1). *)
Fixpoint dl (a : nat -> R) (x0 : R) (n : nat) : option ((nat -> nat -> R) * R) :=
  match n with
  | O => Some (fun m _ => match m with O => 1 | _ => 0 end, 1)
  | S p => let? (d, c1) := dl a x0 p in
      let c2 := fold_left (fun c v => c * (a n - a v)) (seq 0 n) 1 in
      if forallb (fun v => if Req_EM_T (a n - a v) 0 then false else true) (seq 0 n) then
      Some (fun m v =>
        if Nat.ltb v n then ((a n - x0) * d m v - (match m with O => 0 | S j => INR m * d j v end)) / (a n - a v)
        else c1 / c2 * ((match m with O => 0 | S j => INR m * d j p end) - (a p - x0) * d m p), c2)
      else None
  end.
(** the derivative of order M with N = acc + M - 1: N+1 points *)
Definition finite_difference_Fornberg (f x : nat -> R) (x0 : R) (Nx M acc : nat) : outcome (option R) :=
  let N := (acc + M - 1)%nat in
  if Nat.eqb (acc + M) 0 then UB (* N wraps to the largest unsigned, the local array cannot exist *)
  else if negb (Nat.ltb N 100) then Abort
  else if Nat.leb Nx (N + 1) then Abort
  else if Nat.eqb acc 0 then UB (* N = M - 1: delta[M][N][.] is read and was never set *)
  else let off := fd_offset (fd_segment x x0 0 (Nx - 1)) N Nx in
    Ok (let? (d, _) := dl (fun i => x (off + i)%nat) x0 N in Some (Rsum (S N) (fun v => d M v * f (off + v)%nat))).

(** ** Hermite, interpolations.c:745-815, 868-915 *)
(** 757-766: first i with x[i] <= h < x[i+1] *)
Fixpoint hermite_segment (x : nat -> R) (h : R) (i left : nat) : option nat :=
  match left with
  | O => None
  | S k => if leR (x i) h && ltR h (x (S i)) then Some i else hermite_segment x h (S i) k
  end.
(** z[2i] = z[2i+1] = x[offset+i] *)
Definition hz (x : nat -> R) (off k : nat) : R := x (off + k / 2)%nat.
(** 780-812: the table q[i][j], j <= i *)
Fixpoint hq (x f : nat -> R) (fp : nat -> option R) (off j i : nat) : option R :=
  match j with
  | O => Some (f (off + i / 2)%nat)
  | S k =>
      match k with
      | O => if Nat.odd i then fp (off + i / 2)%nat
             else fdiv (f (off + i / 2)%nat - f (off + (i - 1) / 2)%nat) (hz x off i - hz x off (i - 1))
      | S _ => let? a := hq x f fp off k i in let? b := hq x f fp off k (i-1) in
               fdiv (a - b) (hz x off i - hz x off (i - j))
      end
  end.
(** 878-890: sum of q[o][o] (h-z[0])...(h-z[o-1]), o = 0 .. 2 num_points - 1 *)
Fixpoint hsum (x f : nat -> R) (fp : nat -> option R) (off : nat) (h : R) (left o : nat) (hx acc : R) : option R :=
  match left with
  | O => Some acc
  | S k => let? q := hq x f fp off o o in hsum x f fp off h k (S o) (hx * (h - hz x off o)) (acc + q * hx)
  end.
(** the interpolation; plan_interpolation (73-94) has refused num_points = 0 and num_points > N *)
Definition interpolation_Hermite_1d (x f : nat -> R) (fp : nat -> option R) (N np : nat) (h : R) : outcome (option R) :=
  match hermite_segment x h 0 (N - 1) with
  | None => Abort
  | Some off => if Nat.leb N (off + (np - 1)) then Abort else Ok (hsum x f fp off h (2 * np) 0 1 0)
  end.
(** 817-832 derivative_Hermite_1d_ncs: a natural cubic spline through the derivatives (here finite ones) *)
Definition derivative_Hermite_1d (x fp : nat -> R) (N : nat) (h : R) : outcome sres :=
  obind (order_arrays N x fp) (fun s => Ok (interpolation_spline s h)).
(** plan for Hermite1D, 73-94 with set_derivative_array_Hermite_1d (917-938): the arrays used.  [fp] = None: not given;
    [acc]: fd_accuracy_order *)
Record hermite := mkHermite { hN : nat; hx : nat -> R; hf : nat -> R; hfp : nat -> option R }.
Definition fd_all (f x : nat -> R) (N acc : nat) : outcome (nat -> option R) :=
  fold_left (fun r i => obind r (fun v => obind (finite_difference_Fornberg f x (x i) N 1 acc) (fun d => Ok (fun k => if Nat.eqb k i then d else v k))))
            (seq 0 N) (Ok (fun _ => None)).
Definition plan_hermite (N : nat) (x f : nat -> R) (fp : option (nat -> R)) (acc np : nat) : outcome hermite :=
  if (match fp with None => Nat.eqb acc 0 | _ => false end) then Abort
  else if Nat.eqb np 0 then Abort
  else if Nat.ltb N np then Abort
  else obind (order_arrays N x f) (fun s =>
    match fp with
    | Some g => let g' := if GRT (x 0%nat) (x (N-1)%nat) then rev_array N g else g in Ok (mkHermite N (sx s) (sf s) (fun i => Some (g' i)))
    | None => obind (fd_all (sf s) (sx s) N acc) (fun v => Ok (mkHermite N (sx s) (sf s) v))
    end).
(** ** the spline version of the piecewise polytrope, eos_polytropics.c:216-263: floor, spline, and 0 for a negative value or
    DBL_MAX.  [None]: no finite number *)
Definition ncs_value (s : spline) (h_floor h : R) : option R :=
  if LSSEQL h h_floor then Some 0
  else match interpolation_spline s h with
       | Dmax => Some 0
       | Num None => None
       | Num (Some v) => if LSSEQL v 0 then Some 0 else Some v
       end.
