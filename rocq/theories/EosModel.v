(** EosModel.v - equations of state: polytrope, piecewise polytrope, the consistency formulas of the tabular EoS
    (Src/Main/Modules/Physics/EoS). *)
From Verif Require Import RealBase.
From Verif Require Base.
Import Base(outcome, Ok, Abort, UB, obind).
Open Scope R_scope.

(** C pow(x,y) over exact reals. [None]: no finite number (pole at 0, or negative base with non-integer exponent). *)
Definition cpow (x y : R) : option R :=
  if Req_EM_T y 0 then Some 1
  else if ltR 0 x then Some (Rpower x y)
  else if Req_EM_T x 0 then (if ltR 0 y then Some 0 else None)
  else if Req_EM_T y (IZR (Int_part y)) then Some (powerRZ x (Int_part y)) else None.

(** the fields of EoS_T (physics_EoS_lib.h) used here; h is passed separately. [eK] ... are the arrays of N doubles. *)
Record eos := mkEos { eN : nat; egamma : nat -> R; erho : nat -> R; en : nat -> R; eK : nat -> R; ea : nat -> R; eh_th : nat -> R; efatal : bool }.

(** a computation that may read out of bounds or stop (outcome) and may produce a non-finite double (option) *)
Definition calc (A : Type) := outcome (option A).
Definition cbind {A B} (x : calc A) (f : A -> calc B) : calc B :=
  obind x (fun o => match o with Some a => f a | None => Ok None end).
Definition ret {A} (a : A) : calc A := Ok (Some a).
Definition lift {A} (o : option A) : calc A := Ok o.
Definition rd (l : list R) (i : nat) : calc R := match nth_error l i with Some x => ret x | None => UB end.
Notation "'do' x <- e ; f" := (cbind e (fun x => f)) (at level 200, x pattern, e at level 100, f at level 200, right associativity).

(** a loop for (i = 1; i < N; ++i) v[i] = step(i, v[i-1]) after v[0] = x0; [fill m] has filled v[0..m-1], m >= 1 *)
Definition put (v : nat -> R) (i : nat) (x : R) : nat -> R := fun k => if Nat.eqb k i then x else v k.
Fixpoint fill (x0 : R) (step : nat -> (nat -> R) -> calc R) (m : nat) : calc (nat -> R) :=
  match m with
  | O => ret (fun _ => x0)
  | S O => ret (fun _ => x0)
  | S k => do v <- fill x0 step k; do x <- step k v; ret (put v k x)
  end.

(** eos_main.c:109-112 (and 162-165): the order check, for (i = 1; i < N-1; ++i); N unsigned, N >= 1 *)
Fixpoint order_check (rho : list R) (i left : nat) : calc unit :=
  match left with
  | O => ret tt
  | S k => do x <- rd rho (i-1); do y <- rd rho i;
           if GRT x y then Abort else order_check rho (S i) k
  end.
(** eos_main.c:322-335 fill_n; the assert stops the program *)
Fixpoint fill_n_from (gamma : list R) : calc (list R) :=
  match gamma with
  | [] => ret []
  | g :: t => let gm1 := g - 1 in
      if EQL gm1 0 then Abort else do x <- lift (fdiv 1 gm1); do r <- fill_n_from t; ret (x :: r)
  end.
Definition arr (l : list R) : nat -> R := fun i => nth i l 0.
(** eos_main.c:339-355 fill_K *)
Definition fill_K (rho : list R) (n : nat -> R) (K0 : R) (N : nat) : calc (nat -> R) :=
  fill K0 (fun i K => do r <- rd rho i; do q <- lift (fdiv (n i - n (i-1)%nat) (n (i-1)%nat * n i));
                      do w <- lift (cpow r q); ret (K (i-1)%nat * w)) N.
(** eos_main.c:358-375 fill_a *)
Definition fill_a (rho : list R) (gamma K : nat -> R) (N : nat) : calc (nat -> R) :=
  fill 0 (fun i a => do r <- rd rho i;
     do u <- lift (cpow r (gamma (i-1)%nat - 1)); do s <- lift (fdiv (K (i-1)%nat * u) (gamma (i-1)%nat - 1));
     do w <- lift (cpow r (gamma i - 1)); do t <- lift (fdiv (K i * w) (gamma i - 1));
     ret (a (i-1)%nat + s - t)) N.
(** eos_main.c:378-394 fill_h_th *)
Definition fill_h_th (rho : list R) (gamma K a : nat -> R) (N : nat) : calc (nat -> R) :=
  fill 1 (fun i _ => do r <- rd rho i; do g <- lift (fdiv (gamma i) (gamma i - 1));
     do w <- lift (cpow r (gamma i - 1)); ret (1 + a i + g * K i * w)) N.
(** populate_EoS for type pwp, eos_main.c:85-129 (the same lines start pwp_natural_cubic_spline, 140-180), from the three
    parsed lists; the parser gives at least one value each ([K0] = K[0]).  N = 0 cannot happen; it would wrap N-1. *)
Definition populate_pwp (gamma : list R) (K0 : R) (rho : list R) : calc eos :=
  let N := length gamma in
  match N with
  | O => UB
  | S _ =>
    do _ <- order_check rho 1 (N - 2);
    do n <- fill_n_from gamma;
    do K <- fill_K rho (arr n) K0 N;
    do a <- fill_a rho (arr gamma) K N;
    do h <- fill_h_th rho (arr gamma) K a N;
    ret (mkEos N (arr gamma) (arr rho) (arr n) K a h false)
  end.
(** populate_EoS for type polytropic, eos_main.c:258-291; h_th is not set (null) *)
Definition populate_p (gamma : list R) (K0 : R) : calc eos :=
  let N := length gamma in
  if negb (Nat.eqb N 1) then Abort
  else do n <- fill_n_from gamma; ret (mkEos N (arr gamma) (fun _ => 0) (arr n) (fun _ => K0) (fun _ => 0) (fun _ => 0) false).

(** eos_polytropics.c:181-212 find_threshold_number_h; h_th has N entries *)
Definition th (e : eos) (i : nat) : outcome R := if Nat.ltb i (eN e) then Ok (eh_th e i) else UB.
Fixpoint find_piece (e : eos) (h : R) (i left : nat) : outcome nat :=
  match left with
  | O => Abort
  | S k => if GRTEQL h (eh_th e i) && LSSEQL h (eh_th e (S i)) then Ok i else find_piece e h (S i) k
  end.
Definition find_threshold_number_h (e : eos) (h : R) : outcome nat :=
  if efatal e && LSS h 1 then Abort
  else obind (th e 1) (fun t1 => if LSSEQL h t1 then Ok O
  else obind (th e (eN e - 1)) (fun tl => if GRTEQL h tl then Ok (eN e - 1)%nat
  else find_piece e h 1 (eN e - 2))).
(** if (EQL(eos->h,1)) eos->h = 1; *)
Definition snap (h : R) : R := if EQL h 1 then 1 else h.
Definition at_piece (e : eos) (h : R) (f : nat -> calc R) : calc R := obind (find_threshold_number_h e h) f.
(** eos_polytropics.c:18-29 EoS_p_h_pwp *)
Definition EoS_p_h_pwp (e : eos) (h0 : R) : calc R :=
  let h := snap h0 in at_piece e h (fun i =>
  let n := en e i in
  do x <- lift (fdiv (h - 1 - ea e i) (n+1)); do u <- lift (cpow x (n+1)); do w <- lift (cpow (eK e i) (-n)); ret (u * w)).
(** eos_polytropics.c:33-44 EoS_rho0_h_pwp *)
Definition EoS_rho0_h_pwp (e : eos) (h0 : R) : calc R :=
  let h := snap h0 in at_piece e h (fun i =>
  let n := en e i in
  do x <- lift (fdiv (h - 1 - ea e i) (n+1)); do u <- lift (cpow x n); do w <- lift (cpow (eK e i) (-n)); ret (u * w)).
(** eos_polytropics.c:48-59 EoS_drho0_dh_h_pwp *)
Definition EoS_drho0_dh_h_pwp (e : eos) (h0 : R) : calc R :=
  let h := snap h0 in at_piece e h (fun i =>
  let n := en e i in
  do x <- lift (fdiv (h - 1 - ea e i) (n+1)); do u <- lift (cpow x (n-1)); do w <- lift (cpow (eK e i) (-n));
  do r <- lift (fdiv (u * w * n) (n+1)); ret r).
(** eos_polytropics.c:87-97 EoS_e0_h_pwp *)
Definition EoS_e0_h_pwp (e : eos) (h0 : R) : calc R :=
  let h := snap h0 in at_piece e h (fun i =>
  let n := en e i in lift (fdiv (ea e i + n * (h - 1)) (n+1))).
(** eos_polytropics.c:76-83 EoS_e_h_pwp *)
Definition EoS_e_h_pwp (e : eos) (h0 : R) : calc R :=
  let h := snap h0 in
  do e0 <- EoS_e0_h_pwp e h; do r <- EoS_rho0_h_pwp e h; ret (r * (1 + e0)).
(** eos_polytropics.c:101-111 EoS_de_dh_h_pwp *)
Definition EoS_de_dh_h_pwp (e : eos) (h0 : R) : calc R :=
  let h := snap h0 in at_piece e h (fun i =>
  let n := en e i in
  do d <- EoS_drho0_dh_h_pwp e h; do q <- lift (fdiv (ea e i + n * (h - 1)) (n+1));
  do r <- EoS_rho0_h_pwp e h; do s <- lift (fdiv (r * n) (n+1)); ret (d * (1 + q) + s)).

(** the polytrope: eos_polytropics.c:127-136 EoS_p_h_p *)
Definition EoS_p_h_p (e : eos) (h0 : R) : calc R :=
  let h := snap h0 in let n := en e 0 in
  do x <- lift (fdiv (h - 1) (n+1)); do u <- lift (cpow x (n+1)); do w <- lift (cpow (eK e 0) (-n)); ret (u * w).
(** 140-149 EoS_rho0_h_p *)
Definition EoS_rho0_h_p (e : eos) (h0 : R) : calc R :=
  let h := snap h0 in let n := en e 0 in
  do x <- lift (fdiv (h - 1) (n+1)); do u <- lift (cpow x n); do w <- lift (cpow (eK e 0) (-n)); ret (u * w).
(** 63-72 EoS_drho0_dh_h_p *)
Definition EoS_drho0_dh_h_p (e : eos) (h0 : R) : calc R :=
  let h := snap h0 in let n := en e 0 in
  do x <- lift (fdiv (h - 1) (n+1)); do u <- lift (cpow x (n-1)); do w <- lift (cpow (eK e 0) (-n));
  do r <- lift (fdiv (u * w * n) (n+1)); ret r.
(** 165-173 EoS_e0_h_p *)
Definition EoS_e0_h_p (e : eos) (h0 : R) : calc R :=
  let h := snap h0 in let n := en e 0 in lift (fdiv (n * (h - 1)) (n+1)).
(** 154-161 EoS_e_h_p *)
Definition EoS_e_h_p (e : eos) (h0 : R) : calc R :=
  let h := snap h0 in do e0 <- EoS_e0_h_p e h; do r <- EoS_rho0_h_p e h; ret (r * (1 + e0)).
(** 115-123 EoS_de_dh_h_p *)
Definition EoS_de_dh_h_p (e : eos) (h0 : R) : calc R :=
  let h := snap h0 in let n := en e 0 in
  do d <- EoS_drho0_dh_h_p e h; do q <- lift (fdiv (n * (h - 1)) (n+1));
  do r <- EoS_rho0_h_p e h; do s <- lift (fdiv (r * n) (n+1)); ret (d * (1 + q) + s).

(** ** tabular EoS (eos_tabular.c).  [H], [H']: execute_interpolation and execute_1st_deriv_interpolation of an interpolant of
    log10(y + shift) against log10(h). *)
Record tab := mkTab { h_floor : R; h_ceil : R; Hp : R -> R; Hp' : R -> R; p_shift : R; He : R -> R; He' : R -> R; e_shift : R }.
Definition log10 (x : R) : R := ln x / ln 10.
(** eos_tabular.c:24-32: the enthalpy actually used (and stored back in eos->h) *)
Definition clamp (t : tab) (h : R) : R :=
  let h := if leR h (h_floor t) then h_floor t else h in
  if leR (h_ceil t) h then h_ceil t else h.
(** eos_tabular.c:17-40 logy_of_logh_hermite with the floor 0 (309-311); the assert stops the program *)
Definition logy_of_logh (t : tab) (H : R -> R) (shift : R) (h : R) : outcome R :=
  let y := Rpower 10 (H (log10 (clamp t h))) - shift in
  if leR 0 y then Ok y else Abort.
(** 44-58 *)
Definition p_of_h (t : tab) (h : R) : outcome R := logy_of_logh t (Hp t) (p_shift t) h.
Definition e_of_h (t : tab) (h : R) : outcome R := logy_of_logh t (He t) (e_shift t) h.
(** 71-74 rho0_e_p_h; h has been clamped by the two calls; h > 0 is assumed by log10 *)
Definition rho0_e_p_h (t : tab) (h : R) : outcome R :=
  obind (p_of_h t h) (fun p => obind (e_of_h t h) (fun e => Ok ((p + e) / clamp t h))).
(** 79-89 e0_of_e_and_rho0 ; rho0 = 0 gives inf, replaced when EQL(rho0,e) *)
Definition e0_of_e_and_rho0 (t : tab) (h : R) : outcome (option R) :=
  obind (rho0_e_p_h t h) (fun rho0 => obind (e_of_h t h) (fun e =>
  if EQL rho0 e then Ok (Some 0) else Ok (match fdiv e rho0 with Some q => Some (q - 1) | None => None end))).
(** 93-111 dp_dh_hermite_log, de_dh_hermite_log *)
Definition dp_dh (t : tab) (h : R) : outcome R :=
  obind (p_of_h t h) (fun f => let h := clamp t h in Ok (f / h * Hp' t (log10 h))).
Definition de_dh (t : tab) (h : R) : outcome R :=
  obind (e_of_h t h) (fun f => let h := clamp t h in Ok (f / h * He' t (log10 h))).
(** 115-125 drho0_dh_e_p_h *)
Definition drho0_dh (t : tab) (h : R) : outcome R :=
  obind (e_of_h t h) (fun e => obind (de_dh t h) (fun de => obind (p_of_h t h) (fun p => obind (dp_dh t h) (fun dp =>
  let h := clamp t h in Ok ((de + dp - (e + p) / h) / h))))).
(** ** reading a table: one row is (column 2, column 3, column 4) resp. (column 1, 2, 3) of a line that was scanned *)
Inductive tab_format := Tab_Format1 (* number density, total energy density, pressure; unit "compose" *)
  | Tab_Format2 (* rest mass density, specific internal energy, pressure; unit "geo" *).
(** eos_tabular.c:246-248: the decimal constants, as exact rationals *)
Definition p_FACTOR : R := 180162095578956 / 10^53.
Definition rho0_FACTOR : R := 2712069678583313 / 10^18.
Definition e_FACTOR : R := 1619216164136643 / 10^33.
(** eos_tabular.c:224-267: rho0, e, p of a row in geometrised units *)
Definition convert_row (f : tab_format) (row : R * R * R) : R * R * R :=
  let '(rho, e, p) := row in
  match f with
  | Tab_Format1 => (rho * rho0_FACTOR, e * e_FACTOR, p * p_FACTOR)
  | Tab_Format2 => (rho, e * rho + rho, p)
  end.
(** 270-273: the enthalpy of a (converted) row *)
Definition row_h (row : R * R * R) : option R := let '(rho, e, p) := row in fdiv (p + e) rho.
(** eos_tabular.c:287-376 eos_tab_set_hermite_log (pressure and energy part).  [interp x f] are the values and first
    derivatives of the Hermite1D interpolant of the points (x,f).  SIMPLIFICATION: log10 of a non-positive number is not
    modelled (Coq's ln gives 0), the theorems ask for positive arguments. *)
Definition set_hermite_log (interp : list R -> list R -> (R -> R) * (R -> R)) (hfl hce : R) (hs es ps : list R) : outcome tab :=
  match nth_error ps 3, nth_error es 3 with
  | Some psh, Some esh =>
      let hl := map log10 hs in
      let ip := interp hl (map (fun p => log10 (p + psh)) ps) in
      let ie := interp hl (map (fun e => log10 (e + esh)) es) in
      Ok (mkTab hfl hce (fst ip) (snd ip) psh (fst ie) (snd ie) esh)
  | _, _ => UB
  end.
