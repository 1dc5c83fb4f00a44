(** TovModel.v - TOV_solution.c.  The equation of state is a parameter: e = energy density, p = pressure, de = de/dh as functions of the
    enthalpy h.  Arrays are functions of their index.  Simplified: doubles are reals and division is total, so the checks isfinite of single
    operations are not modelled; printing is left out. *)
From Verif Require Import RealBase Spectral3Model.
From Verif Require Base.
Import Base(outcome, Ok, Abort, UB, obind).
Open Scope R_scope.

Section Eos.
Variables e p de : R -> R.
(** TOV_solution.c:549-561 *)
Definition dr_dh (h r m : R) : R := - r * (r - 2 * m) / (m + 4 * PI * (r * r * r) * p h) / h.
(** :564-575 *)
Definition dm_dh (h r m : R) : R := 4 * PI * (r * r) * e h * dr_dh h r m.
(** :534-545 *)
Definition drbar_dh (h rbar r m : R) : R := rbar / sqrt (1 - 2 * m / r) / r * dr_dh h r m.
(** :500-514 *)
Definition r_approx (h hc : R) : R :=
  sqrt (3 * (hc - h) / (2 * PI * (e hc + 3 * p hc))) * (1 - 1 / 4 * (e hc - 3 * p hc - 3 * de hc / 5) * (hc - h) / (e hc + 3 * p hc)).
(** :517-530 *)
Definition m_approx (h hc : R) : R := 4 * PI / 3 * e hc * (r_approx h hc) ^ 3 * (1 - 3 / 5 * de hc * (hc - h) / e hc).
End Eos.

(** :471-492 one Runge-Kutta step of size s from t for dr/dh = F, dm/dh = G *)
Definition rk4 (F G : R -> R -> R -> R) (s t r m : R) : R * R :=
  let k1r := s * F t r m in let k1m := s * G t r m in
  let k2r := s * F (t + s / 2) (r + k1r / 2) (m + k1m / 2) in let k2m := s * G (t + s / 2) (r + k1r / 2) (m + k1m / 2) in
  let k3r := s * F (t + s / 2) (r + k2r / 2) (m + k2m / 2) in let k3m := s * G (t + s / 2) (r + k2r / 2) (m + k2m / 2) in
  let k4r := s * F (t + s) (r + k3r) (m + k3m) in let k4m := s * G (t + s) (r + k3r) (m + k3m) in
  (r + (k1r + 2 * k2r + 2 * k3r + k4r) / 6, m + (k1m + 2 * k2m + 2 * k3m + k4m) / 6).

Record Star := mkStar { hs : nat -> R; rs : nat -> R; ms : nat -> R; hcent : R; NN : nat }.

Section Eos2.
Variables e p de : R -> R.
(** :462-495: the pair (r[k+1], m[k+1]) *)
Fixpoint rm_at (a s : R) (k : nat) : R * R :=
  match k with
  | O => (r_approx e p de (a + s) a, m_approx e p de (a + s) a)
  | S j => rk4 (dr_dh p) (dm_dh e p) s (a + INR (S j) * s) (fst (rm_at a s j)) (snd (rm_at a s j))
  end.
(** :448-497 solve_ODE_enthalpy_approach; fewer than two points: h[1] is written outside the array *)
Definition solve_ODE (hc : R) (N : nat) : outcome Star :=
  if Nat.ltb N 2 then UB else
  let s := (1 - hc) / INR (N - 1) in
  Ok {| hs := fun i => hc + INR i * s;
        rs := fun i => match i with O => 0 | S k => fst (rm_at hc s k) end;
        ms := fun i => match i with O => 0 | S k => snd (rm_at hc s k) end; hcent := hc; NN := N |}.
(** :413-435 *)
Definition baryonic_integrand (T : Star) (i : nat) : R :=
  match i with O => 0 | _ =>
    4 * PI * ((e (hs T i) + p (hs T i)) / hs T i) / sqrt (1 - 2 * ms T i / rs T i) * Pow2 (rs T i) * dr_dh p (hs T i) (rs T i) (ms T i) end.
(** :391-409 *)
Definition baryonic_mass (T : Star) : outcome (option R) := Composite_Simpson_1D (hcent T) 1 (NN T) (baryonic_integrand T).
(** :298-309 *)
Definition phi_of (T : Star) (i : nat) : R :=
  - ln (hs T i) + ln (sqrt (1 - 2 * ms T (NN T - 1) / rs T (NN T - 1))).
(** :349-367 and :371-387 *)
Definition Komar_integrand (T : Star) (i : nat) : R :=
  match i with O => 0 | _ =>
    4 * PI * (e (hs T i) + 3 * p (hs T i)) * exp (phi_of T i) / sqrt (1 - 2 * ms T i / rs T i) * Pow2 (rs T i) * dr_dh p (hs T i) (rs T i) (ms T i) end.
Definition ADM_integrand (T : Star) (i : nat) : R :=
  match i with O => 0 | _ => 4 * PI * e (hs T i) * Pow2 (rs T i) * dr_dh p (hs T i) (rs T i) (ms T i) end.
(** :262-295 c_rbar: the integrand and the constant *)
Definition c_integrand (T : Star) (i : nat) : R :=
  match i with O => 0 | _ => (1 / sqrt (1 - 2 * ms T i / rs T i) - 1) / rs T i * dr_dh p (hs T i) (rs T i) (ms T i) end.
Definition rbar_surface (R0 M0 : R) : R := 1 / 2 * (R0 - M0 + sqrt (Pow2 R0 - 2 * M0 * R0)).
Definition c_rbar (T : Star) : outcome (option R) :=
  obind (Composite_Simpson_1D (hcent T) 1 (NN T) (c_integrand T)) (fun I => Ok (let? c := I in
    Some (c - ln (rbar_surface (rs T (NN T - 1)) (ms T (NN T - 1)) / rs T (NN T - 1))))).
(** :216-250, with the interpolants ri, mi of r and m in h (natural cubic splines) as parameters: rbar[N-1-k] *)
Fixpoint rbar_down (ri mi : R -> R) (R0 M0 s : R) (k : nat) : R :=
  match k with
  | O => rbar_surface R0 M0
  | S j => let y := rbar_down ri mi R0 M0 s j in let t := 1 + INR j * s in
      let k1 := s * drbar_dh p t y (ri t) (mi t) in
      let k2 := s * drbar_dh p (t + s / 2) (y + k1 / 2) (ri (t + s / 2)) (mi (t + s / 2)) in
      let k3 := s * drbar_dh p (t + s / 2) (y + k2 / 2) (ri (t + s / 2)) (mi (t + s / 2)) in
      let k4 := s * drbar_dh p (t + s) (y + k3) (ri (t + s)) (mi (t + s)) in
      y + (k1 + 2 * k2 + 2 * k3 + k4) / 6
  end.
(** :187-258 isotropic_coords_transformation: rbar and psi, given the constant c *)
Definition rbar_of (T : Star) (c : R) (ri mi : R -> R) (i : nat) : R :=
  let N1 := (NN T - 1)%nat in
  if Nat.eqb i N1 then rbar_surface (rs T N1) (ms T N1) else
  match i with
  | O => 0
  | 1%nat => r_approx e p de (hs T 1) (hs T 0) * exp (- c)
  | _ => rbar_down ri mi (rs T N1) (ms T N1) ((hcent T - 1) / INR N1) (N1 - i)
  end.
Definition psi_of (T : Star) (c : R) (ri mi : R -> R) (i : nat) : R :=
  match i with O => sqrt (exp c) | _ => sqrt (rs T i / rbar_of T c ri mi i) end.
End Eos2.

(** :16-97 the search for the central enthalpy.  [mass h] is the baryonic mass of the star with central enthalpy h, None: NaN (the infinities are not modelled)
    for which every comparison is false. *)
Definition oEQL (m : option R) (y : R) : bool := match m with Some x => EQL x y | None => false end.
Definition oLSS (m : option R) (y : R) : bool := match m with Some x => LSS x y | None => false end.
Definition oGRT (m : option R) (y : R) : bool := match m with Some x => GRT x y | None => false end.
Record search := mkS { h_cent : R; h_new : R; h_prev : R; sa : R; sb : R; increase : bool; bisection : bool; sm : option R }.
Definition search_step (mass : R -> option R) (bar : R) (z : search) : search :=
  let m := mass (h_new z) in
  let z1 := {| h_cent := h_new z; h_new := h_new z; h_prev := h_prev z; sa := sa z; sb := sb z; increase := increase z; bisection := bisection z; sm := m |} in
  let z2 := if increase z1 then
      if oLSS m bar then {| h_cent := h_cent z1; h_new := h_new z1 + h_new z1 * (1 / 4); h_prev := h_new z1; sa := sa z1; sb := sb z1; increase := true; bisection := bisection z1; sm := m |}
      else {| h_cent := h_cent z1; h_new := h_new z1; h_prev := h_prev z1; sa := h_prev z1; sb := h_new z1; increase := false; bisection := true; sm := m |}
    else z1 in
  if bisection z2 then
    let a := if oGRT m bar then sa z2 else h_new z2 in let b := if oGRT m bar then h_new z2 else sb z2 in
    {| h_cent := h_cent z2; h_new := a + 1 / 2 * (b - a); h_prev := h_prev z2; sa := a; sb := b; increase := increase z2; bisection := bisection z2; sm := m |}
  else z2.
Fixpoint search_loop (mass : R -> option R) (bar : R) (fuel : nat) (z : search) : search :=
  match fuel with O => z | S k => if oEQL (sm z) bar then z else search_loop mass bar k (search_step mass bar z) end.
(** the result: (central enthalpy, mass, status, new bar_m); None: zero mass requested (:28-37), nothing computed, status 1 *)
Inductive TovResult := NoStar | Failed | Star_of (hc m : R) (status : bool) (bar_m : R).
(** :12-126; MAX_iter = 1000 *)
Definition TOV_search (mass : R -> option R) (bar : R) : TovResult :=
  if EQL bar 0 then NoStar else
  let z := search_loop mass bar 1000 {| h_cent := 0; h_new := 3 / 2; h_prev := 1; sa := 0; sb := 0; increase := true; bisection := false; sm := Some 0 |} in
  match sm z with
  | None => Failed
  | Some m => if EQL m bar then Star_of (h_cent z) m false bar else Star_of (h_cent z) m true m
  end.
(** the mass the search compares, for N points *)
Definition mass_of (e p de : R -> R) (N : nat) (hc : R) : outcome (option R) := obind (solve_ODE e p de hc N) (fun T => baryonic_mass e p T).
