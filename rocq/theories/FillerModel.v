(** FillerModel.v - extrapolation of fields into a black hole and out of a star.
    Models Src/Main/Modules/Physics/BlackHole/bh_bhfiller.c, bh_bhf_ChebTn_filler.c,
    bh_bhf_polynomial_smoother.c and Src/Main/Modules/Physics/Star/star_NS_surface.c.
    SIMPLIFICATIONS: a double is an exact real; a quotient is Coq's total division, so every
    theorem about a quotient assumes that its divisor is not zero; pow(M_E,x) is [exp x]. *)
From Verif Require Import RealBase SpectralModel.
From Verif Require Base.
Import Base(outcome, Ok, Abort, UB, obind).
From Coq Require Import String Ascii.
Open Scope R_scope.

(** ** Chebyshev filler *)
(** bh_bhf_ChebTn_filler.c:8-30 bh_bhf_ChebTn_extrapolate: the six coefficients. *)
Definition cheb_a (fr0 fr1 dfdr ddfddr rfill : R) (i : nat) : R :=
  match i with
  | 0%nat => (3/128)*ddfddr*rfill^2 - 37/256*dfdr*rfill + (49/128)*fr0 + (79/128)*fr1
  | 1%nat => -(1)/256*ddfddr*rfill^2 - 5/256*dfdr*rfill - 35/64*fr0 + (35/64)*fr1
  | 2%nat => -(1)/32*ddfddr*rfill^2 + (11/64)*dfdr*rfill + (5/32)*fr0 - 5/32*fr1
  | 3%nat => (3/512)*ddfddr*rfill^2 + (7/512)*dfdr*rfill + (5/128)*fr0 - 5/128*fr1
  | 4%nat => (1/128)*ddfddr*rfill^2 - 7/256*dfdr*rfill - 5/128*fr0 + (5/128)*fr1
  | 5%nat => -(1)/512*ddfddr*rfill^2 + (3/512)*dfdr*rfill + (1/128)*fr0 - 1/128*fr1
  | _ => 0
  end.
(** bh_bhfiller.c:102,175 NCoeffs = 6 and :967-971 (ChebTn_general_s2): the value written at a
    node at distance r from the centre, [t = 2*r/rSurf-1; v += a[i]*Cheb_Tn(i,t)]. *)
Definition cheb_fill (fr0 fr1 dfdr ddfddr rSurf r : R) : R :=
  Rsum 6 (fun i => cheb_a fr0 fr1 dfdr ddfddr rSurf i * Cheb_Tn (Z.of_nat i) (2*r/rSurf - 1)).
(** bh_bhfiller.c:538-551 (ChebTn_Ylm_perfect_s2), the radial part: a radius beyond the surface is
    first set to the surface.  The angular part (Ylm interpolation of every coefficient) is the
    subject of Props_Ylm. *)
Definition cheb_fill_clamped (fr0 fr1 dfdr ddfddr rfill r : R) : R :=
  cheb_fill fr0 fr1 dfdr ddfddr rfill (if Rgt_dec r rfill then rfill else r).

(** ** Radial derivatives from the Cartesian ones *)
(** bh_bhfiller.h:18-21 (= star_NS_surface.h:14-17) IJsymm3: index of a symmetric pair. *)
Definition IJsymm3 (i j : nat) : nat :=
  (if i <=? j then 5*((j+i*2)/6) + (j+i*2) mod 6 else 5*((i+j*2)/6) + (i+j*2) mod 6)%nat.
(** bh_bhfiller.c:949 (also 487, 728 and star_NS_surface.c:419) *)
Definition dfdr_of (N df : nat -> R) : R := N 0%nat*df 0%nat + N 1%nat*df 1%nat + N 2%nat*df 2%nat.
(** bh_bhfiller.c:951-963 (also 489-501, 742-753 and star_NS_surface.c:421-435): the double loop. *)
Definition ddfddr_of (N x df ddf : nat -> R) (rSurf : R) : R :=
  let KD (b : bool) := if b then 1 else 0 in
  Rsum 3 (fun i =>
    Rsum 3 (fun j => (KD (i =? j)%nat / rSurf - x i * x j / (rSurf * (rSurf * rSurf))) * df j
                     + N j * ddf (IJsymm3 i j)) * N i).

(** ** Smoothing functions *)
(** bh_bhf_polynomial_smoother.c:6-15 *)
Definition poly_smoother (r rmax rmin : R) : R :=
  let x := (2*r-rmax-rmin)/(rmax-rmin) in
  (35/256)*x^9 - 45/64*x^7 + (189/128)*x^5 - 105/64*x^3 + (315/256)*x + 1/2.
(** bh_bhfiller.c:1065-1084 bh_bhf_smoother *)
Definition smoother (r rmax rmin : R) : R :=
  if Rge_dec r rmax then 1 else if Rle_dec r rmin then 0 else poly_smoother r rmax rmin.
(** bh_bhfiller.c:1089-1113 polynomial5 *)
Definition polynomial5 (r rmax rmin : R) : R :=
  let a0 := (rmin^3*(10*rmax^2 - 5*rmax*rmin + rmin^2))/(-rmax + rmin)^5 in
  let a1 := (30*rmax^2*rmin^2)/(rmax - rmin)^5 in
  let a2 := (-(30)*rmax*rmin*(rmax + rmin))/(rmax - rmin)^5 in
  let a3 := (10*(rmax^2 + 4*rmax*rmin + rmin^2))/(rmax - rmin)^5 in
  let a4 := (-(15)*(rmax + rmin))/(rmax - rmin)^5 in
  let a5 := 6/(rmax - rmin)^5 in
  a0 + a1*r + a2*r^2 + a3*r^3 + a4*r^4 + a5*r^5.
(** bh_bhfiller.c:1118-1150 polynomial7 *)
Definition polynomial7 (r rmax rmin : R) : R :=
  let D := (rmax - rmin)^7 in
  let a0 := (rmin^4*(35*rmax^3 - 21*rmax^2*rmin + 7*rmax*rmin^2 - rmin^3))/D in
  let a1 := (-(140)*rmax^3*rmin^3)/D in
  let a2 := (210*rmax^2*rmin^2*(rmax + rmin))/D in
  let a3 := (-(140)*rmax*rmin*(rmax^2 + 3*rmax*rmin + rmin^2))/D in
  let a4 := (35*(rmax^3 + 9*rmax^2*rmin + 9*rmax*rmin^2 + rmin^3))/D in
  let a5 := (-(84)*(rmax^2 + 3*rmax*rmin + rmin^2))/D in
  let a6 := (70*(rmax + rmin))/D in
  let a7 := -(20)/D in
  a0 + a1*r + a2*r^2 + a3*r^3 + a4*r^4 + a5*r^5 + a6*r^6 + a7*r^7.

(** ** Exponential fillers of a black hole *)
(** bh_bhfiller.c:10 Attenuate_Factor0 = 1 *)
Definition BH_Att : R := 1.
(** bh_bhfiller.c:1461-1469 approx_expmr_C0 *)
Definition bh_expmr_C0 (r0 fr0 r : R) : R := fr0 * exp (BH_Att * Rabs (r - r0) / r0).
(** bh_bhfiller.c:1473-1487 approx_r_expmr_C1 *)
Definition bh_r_expmr_C1 (r0 fr0 dfr0 r : R) : R :=
  let a := fr0 + BH_Att*fr0 - dfr0*r0 in
  let b := dfr0 - (BH_Att*fr0)/r0 in
  (a + b*r) * exp (BH_Att * Rabs (r - r0) / r0).

(** ** Extrapolants outside a star *)
(** star_NS_surface.c:11 *) Definition Att0 : R := 1/2.
(** star_NS_surface.c:12 *) Definition Att1 : R := 1/100.
(** star_NS_surface.c:542-556 approx_poly2 *)
Definition st_poly2 (r0 fr0 dfr0 ddfr0 r : R) : R :=
  let a := fr0 + (r0*(-(2)*dfr0 + ddfr0*r0))/2 in
  let b := dfr0 - ddfr0*r0 in
  let c := (1/2)*ddfr0 in
  a + b*r + c*(r*r).
(** star_NS_surface.c:560-574 approx_inverse_r2 *)
Definition st_inverse_r2 (r0 fr0 dfr0 ddfr0 r : R) : R :=
  let a := fr0 + (r0*(4*dfr0 + ddfr0*r0))/2 in
  let b := -((r0*r0)*(3*dfr0 + ddfr0*r0)) in
  let c := ((r0*r0*r0)*(2*dfr0 + ddfr0*r0))/2 in
  a + b/r + c/(r*r).
(** star_NS_surface.c:578-599 approx_inverse_r2_expmr *)
Definition st_inverse_r2_expmr (r0 fr0 dfr0 ddfr0 r : R) : R :=
  let A := Att1 in
  let a := (exp A*((2 + 4*A + A*A)*fr0 + r0*(2*(2 + A)*dfr0 + ddfr0*r0)))/2 in
  let b := -(exp A*r0*(3*A*fr0 + (A*A)*fr0 + 3*dfr0*r0 + 2*A*dfr0*r0 + ddfr0*(r0*r0))) in
  let c := (exp A*(r0*r0)*((A*A)*fr0 + r0*(2*dfr0 + ddfr0*r0) + 2*A*(fr0 + dfr0*r0)))/2 in
  (a + b/r + c/(r*r)) * exp (-A*r/r0).
(** star_NS_surface.c:603-622 approx_inverse_r2_expmAr *)
Definition st_inverse_r2_expmAr (r0 fr0 dfr0 ddfr0 r : R) : R :=
  let A := Att0 in
  let a := (fr0*(2 + 4*A*r0 + (A*A)*(r0*r0)) + r0*(ddfr0*r0 + 2*dfr0*(2 + A*r0)))/2 in
  let b := -((r0*r0)*(3*A*fr0 + ddfr0*r0 + (A*A)*fr0*r0 + dfr0*(3 + 2*A*r0))) in
  let c := ((r0*r0*r0)*(2*A*fr0 + ddfr0*r0 + (A*A)*fr0*r0 + 2*dfr0*(1 + A*r0)))/2 in
  (a + b/r + c/(r*r)) * exp (-A*Rabs (r-r0)).
(** star_NS_surface.c:626-639 approx_inverse_r_expmAr *)
Definition st_inverse_r_expmAr (r0 fr0 dfr0 r : R) : R :=
  let A := Att0 in
  let a := fr0 + dfr0*r0 + A*fr0*r0 in
  let b := -((dfr0 + A*fr0)*(r0*r0)) in
  (a + b/r) * exp (-A*Rabs (r-r0)).
(** star_NS_surface.c:643-656 approx_inverse_r_expmr *)
Definition st_inverse_r_expmr (r0 fr0 dfr0 r : R) : R :=
  let A := Att1 in
  let a := exp A*(fr0 + A*fr0 + dfr0*r0) in
  let b := -(exp A*r0*(A*fr0 + dfr0*r0)) in
  (a + b/r) * exp (-A*r/r0).
(** star_NS_surface.c:661-681 approx_exp2; it stops the program on a vanishing derivative. *)
Definition st_exp2 (r0 fr0 dfr0 ddfr0 r : R) : outcome R :=
  if EQL ddfr0 0 || EQL dfr0 0 then Abort
  else
    let a := -(dfr0^2/ddfr0) + fr0 in
    let b := dfr0^2/(ddfr0*exp (ddfr0*r0/dfr0)) in
    let c := ddfr0/dfr0 in
    Ok (a + b*exp (c*r)).
(** star_NS_surface.c:1285-1387 extrapolate_expmr_C0_CS: only the value at the surface is used. *)
Definition st_expmr (r0 fr0 r : R) : R := fr0 * exp (-(1/10)*(r - r0)).
(** star_NS_surface.c:51-210 extrap_init: what the parameter "extrapolate_matter_fields" selects;
    strcmp_i is modelled by equality (lower-casing is the subject of Props_Text). *)
Definition st_extrap (method : string) (r0 fr0 dfr0 ddfr0 r : R) : outcome R :=
  (if method =? "inverse_r_expmAr" then Ok (st_inverse_r_expmAr r0 fr0 dfr0 r)
  else if method =? "inverse_r_expmr" then Ok (st_inverse_r_expmr r0 fr0 dfr0 r)
  else if method =? "poly2" then Ok (st_poly2 r0 fr0 dfr0 ddfr0 r)
  else if method =? "exp2" then st_exp2 r0 fr0 dfr0 ddfr0 r
  else if method =? "inverse_r2" then Ok (st_inverse_r2 r0 fr0 dfr0 ddfr0 r)
  else if method =? "inverse_r2_expmr" then Ok (st_inverse_r2_expmr r0 fr0 dfr0 ddfr0 r)
  else if method =? "inverse_r2_expmAr" then Ok (st_inverse_r2_expmAr r0 fr0 dfr0 ddfr0 r)
  else if method =? "expmr" then Ok (st_expmr r0 fr0 r)
  else Abort)%string.
