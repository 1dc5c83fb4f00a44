(** StarStart.v - the star's first fields and the centring of its enthalpy.
    Models Src/Main/Modules/Physics/Star/star_NS.c: star_populate_psi_alphaPsi_matter_fields_TOV,
    star_NS_find_where_denthalpy_is_0, adjust_NS_center_Taylor_expansion and adjust_NS_center_interpolation.
    SIMPLIFICATIONS: a double is an exact real; fields are functions of the position (what the nodes receive at their
    positions); the natural cubic splines of the TOV table are given functions (the splines are C77); the value of a field
    at a position is what f_of_X interpolates; the search for the root is its result (C39, C60); printing is left out. *)
From Verif Require Import RealBase.
From Verif Require ControlModel.
Open Scope R_scope.
Definition pt := nat -> R.
Definition dist (c x : pt) : R := sqrt (Pow2 (x 0%nat - c 0%nat) + Pow2 (x 1%nat - c 1%nat) + Pow2 (x 2%nat - c 2%nat)).
(** star_NS.c:1092-1138, a patch of the star: psi, alphaPsi, enthalpy, rho0, phi and the spin part W.
    [ps], [hs] the splines, [eos] the rest mass density as a function of the enthalpy, [M] the ADM mass, [Rs] the last
    radius of the table. *)
Record inner := mkinner { i_psi : R; i_alphaPsi : R; i_h : R; i_rho0 : R; i_phi : R; i_W : pt }.
Definition tov_in (ps hs eos : R -> R) (M Rs Omega yCM : R) (c Om x : pt) : inner :=
  let r := dist c x in
  let psi := ps r in
  let h := hs r in
  let alpha := sqrt (1 - 2*M/Rs)/h in
  mkinner psi (psi*alpha) h (eos h) (- Omega*(c 1%nat - yCM)*(x 0%nat - c 0%nat)) (ControlModel.W_spin Om (fun i => x i - c i)).
(** star_NS.c:1146-1171, any other patch: psi and alphaPsi *)
Definition out_psi (M : R) (c x : pt) : R := 1 + 1/2*M/dist c x.
Definition out_alphaPsi (M : R) (c x : pt) : R :=
  let r := dist c x in out_psi M c x * ((1 - 1/2*M/r)/(1 + 1/2*M/r)).

(** star_NS.c:838-866: the position returned by star_NS_find_where_denthalpy_is_0.  [ok]: exit status ROOT_FINDER_OK *)
Definition where_dh0 (tolerance : R) (center found : pt) (ok : bool) (residual : R) : pt :=
  if ok || LSS residual (sqrt tolerance) then found else center.
(** star_NS.c:876-1001: what the root finder is given, d enthalpy/dx^i at x; a position outside the star's patches
    interrupts it and counts as 0 *)
Definition dh_eq (inside : pt -> bool) (dh : nat -> pt -> R) (i : nat) (x : pt) : R * bool :=
  if inside x then (dh i x, false) else (0, true).
(** star_NS.c:753-757 and :1007-1011 *)
Definition no_shift (d : pt) : bool := EQL (d 0%nat) 0 && EQL (d 1%nat) 0 && EQL (d 2%nat) 0.
(** star_NS.c:985-1049 adjust_NS_center_Taylor_expansion: the new enthalpy.  [Rc] = where_dh0, [dh] the derivatives at the centre *)
Definition taylor (W : R) (center Rc : pt) (dh : nat -> R) (h : pt -> R) (x : pt) : R :=
  if no_shift (fun i => Rc i - center i) then h x
  else h x - W*(dh 0%nat*(x 0%nat - center 0%nat) + dh 1%nat*(x 1%nat - center 1%nat) + dh 2%nat*(x 2%nat - center 2%nat)).
(** star_NS.c:734-828 adjust_NS_center_interpolation; [found y]: some patch of the star or its surroundings has y *)
Definition drawn (W1 : R) (center Rc : pt) (found : pt -> bool) (h : pt -> R) (x : pt) : R :=
  let d := fun i => Rc i - center i in
  if no_shift d then h x
  else let y := fun i => x i + d i in
       if found y then (1 - W1)*h x + W1*h y else h x.
