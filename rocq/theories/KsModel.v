(** KsModel.v - the analytic Kerr-Schild free data as the code evaluates it at a node.
    The generated functions are in GenKsX/R/H/K/G.v. *)
From Coq Require Import Reals.
From Verif Require Import RealBase LinAlg3Model CubedModel GenKsX GenKsR GenKsH GenKsK GenKsG KsSpec.
Local Open Scope R_scope.

(** fd_KerrSchild_g_dg_ddg_dddg.c:12-29 KS_set_args (the same text in fd_KerrSchild_alpha.c,
    _beta.c, _psi_alpha_beta.c, _Kij_trK.c): x, y, z first, then X, Y, Z, then R from them, then the
    rates.  A field not yet written reads as 0 here; no function called so far reads it. *)
Definition ks_set_args (P : kspar) (x y z : R) : ksarg :=
  let f0 := mkarg x y z 0 0 0 0 0 0 0 0 0 0 0 0 0 in
  let X := ks_X P f0 in let Y := ks_Y P f0 in let Z := ks_Z P f0 in
  let f1 := mkarg x y z X Y Z 0 0 0 0 0 0 0 0 0 0 in
  let R := ks_R P f1 in
  mkarg x y z X Y Z R (ks_dX_D0 P f1) (ks_dX_D1 P f1) (ks_dX_D2 P f1)
    (ks_dY_D0 P f1) (ks_dY_D1 P f1) (ks_dY_D2 P f1) (ks_dZ_D0 P f1) (ks_dZ_D1 P f1) (ks_dZ_D2 P f1).
(** fd_KerrSchild_g_dg_ddg_dddg.c:72-77: at a node with coordinates q, for a hole centred at ctr *)
Definition ks_node (P : kspar) (ctr q : vec) : ksarg :=
  ks_set_args P (q 0%nat - ctr 0%nat) (q 1%nat - ctr 1%nat) (q 2%nat - ctr 2%nat).

(** fd_KerrSchild_g_dg_ddg_dddg.c:55-118 fd_kerr_schild_g_analytic at one node: the field _gamma_DiDj
    (stored for i <= j) *)
Definition ks_metric (P : kspar) (ctr q : vec) (i j : nat) : R := kst_gamma P (ks_node P ctr q) i j.
(** :119-364 fd_kerr_schild_dg_analytic: the field _dgamma_DiDjDk *)
Definition ks_dmetric (P : kspar) (ctr q : vec) (i j k : nat) : R := kst_dgamma P (ks_node P ctr q) i j k.
(** :366-1492 fd_kerr_schild_ddg_analytic: the field _ddgamma_DiDjDkDl *)
Definition ks_ddmetric (P : kspar) (ctr q : vec) (i j k l : nat) : R := kst_ddgamma P (ks_node P ctr q) i j k l.
(** :1494-7499 fd_kerr_schild_dddg_analytic: the field _dddgamma_DiDjDkDlDm *)
Definition ks_dddmetric (P : kspar) (ctr q : vec) (i j k l m : nat) : R :=
  kst_dddgamma P (ks_node P ctr q) i j k l m.

(** fd_KerrSchild_alpha.c:59 (and _psi_alpha_beta.c:88, _Kij_trK.c) the lapse at a node *)
Definition ks_alpha (P : kspar) (f : ksarg) : R := 1 / sqrt (1 + ks_c P f * ks_kt P f * ks_kt P f).
(** fd_KerrSchild_beta.c:69-71 (and _psi_alpha_beta.c, _Kij_trK.c): betaD_Di *)
Definition ks_betaD (P : kspar) (f : ksarg) (i : nat) : R :=
  match i with
  | O => ks_c P f * ks_kt P f * ks_k0 P f
  | 1%nat => ks_c P f * ks_kt P f * ks_k1 P f
  | _ => ks_c P f * ks_kt P f * ks_k2 P f end.
(** fd_KerrSchild_beta.c:72-88: beta_Ui from the inverse metric ig *)
Definition ks_betaU (P : kspar) (f : ksarg) (ig : sym3) (i : nat) : R :=
  let b0 := ks_betaD P f 0 in let b1 := ks_betaD P f 1 in let b2 := ks_betaD P f 2 in
  match i with
  | O => b0 * s00 ig + b1 * s01 ig + b2 * s02 ig
  | 1%nat => b0 * s01 ig + b1 * s11 ig + b2 * s12 ig
  | _ => b0 * s02 ig + b1 * s12 ig + b2 * s22 ig end.
(** fd_populate.c:866-905 fd_populate_beta_KerrSchild at one node (and :770-830, :940-985):
    metric, its inverse, then beta; [None]: a division by zero in the inverse *)
Definition ks_populate (P : kspar) (ctr q : vec) : option (sym3 * R * vec) :=
  let f := ks_node P ctr q in
  let g := S3 (ks_metric P ctr q 0 0) (ks_metric P ctr q 0 1) (ks_metric P ctr q 0 2)
              (ks_metric P ctr q 1 1) (ks_metric P ctr q 1 2) (ks_metric P ctr q 2 2) in
  match Matrix_Inverse_3x3_Symmetric g with
  | None => None
  | Some ig => Some (ig, ks_alpha P f, fun i => ks_betaU P f ig i)
  end.

(** fd_KerrSchild_params.c:33-80 fd_KerrSchild_set_params; [None]: an assert fails.  The hole has mass M,
    spin parameter a, dimensionless spin chi, velocity V; hs is the value of 0.707106781186548. *)
Definition ks_set_params (hs M a : R) (chi V : vec) : option kspar :=
  let chin := sqrt (Pow2 (chi 0%nat) + Pow2 (chi 1%nat) + Pow2 (chi 2%nat)) in
  if negb (LSSEQL chin 1) then None else
  let b2 := Pow2 (V 0%nat) + Pow2 (V 1%nat) + Pow2 (V 2%nat) in
  let '(bx, by', bz, b2) :=
    if EQL b2 0 then (0, 0, 0, / 100000000000000) else (V 0%nat, V 1%nat, V 2%nat, b2) in
  let '(py, pz) :=
    if negb (EQL chin 0) then (acos (chi 2%nat / chin), arctan (chi 1%nat) (chi 0%nat)) else (0, 0) in
  Some (mkpar M a py pz bx by' bz b2 1 hs).

(** fd_KerrSchild_BH_surface.c:13: the value of R sought on the surface *)
Definition bh_surface_R (M a : R) : R := M + sqrt (Pow2 M + Pow2 a).
(** fd_KerrSchild_BH_surface.c:70-82 BH_surface_root_finder_eq at radius r in direction th, ph *)
Definition bh_surface_eq (P : kspar) (Rs th ph r : R) : R :=
  Rs - fR (ks_set_args P (r * sin th * cos ph) (r * sin th * sin ph) (r * cos th)).

(** bh_bh.c:88-106 bh_start_off_KerrSchild_general_s2: (Christodoulou_mass, spin_a, printed radius); [None]:
    the program ends.  sqrt of a negative number gives no finite number (bh_bh.c:97). *)
Definition bh_start_general (irr : R) (chi : vec) : option (R * R * R) :=
  let chin := sqrt (Pow2 (chi 0%nat) + Pow2 (chi 1%nat) + Pow2 (chi 2%nat)) in
  if GRT chin 1 then None else
  if ltR (1 - Pow2 chin) 0 then None (* nan *) else
  let m := irr * sqrt (2 / (1 + sqrt (1 - Pow2 chin))) in
  Some (m, chin * m, m * (1 + sqrt (1 - Pow2 chin))).
(** bh_bh.c:47-71 bh_start_off_CloseKerrSchild_perfect_s2: (Christodoulou_mass, spin_a, radius) *)
Definition bh_start_close (irr : R) (chi : vec) : option (R * R * R) :=
  let chin := sqrt (Pow2 (chi 0%nat) + Pow2 (chi 1%nat) + Pow2 (chi 2%nat)) in
  if GRT chin 1 then None else
  if ltR (1 - Pow2 chin) 0 then None (* nan *) else
  let m := irr * sqrt (2 / (1 + sqrt (1 - Pow2 chin))) in
  Some (irr, chin * m, 3 / 2 * irr).
