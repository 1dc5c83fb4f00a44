(** FreeModel.v - free data other than the Kerr-Schild functions themselves, at one grid node. *)
From Coq Require Import Reals Bool.
From Verif Require Import RealBase LinAlg3Model CubedModel EosModel BssnModel GenKsX GenKsG KsSpec KsModel.
From Verif Require GenKsKij GenPgKij.
Local Open Scope R_scope.

(** fd_populate.h:17-22 the two values of RollOff_function *)
Inductive rollfun := ExpCut (* exp(-lambda*(r/rmax)^p):r<rmax *) | ExpAll (* exp(-lambda*(r/rmax)^p) *).
(** fd_populate.h:24-29 the two values of RollOff_lambda *)
Inductive rolllam := Ratio (* |(r-rmin)/(rmax-r)| *) | Const1.
(** fd_populate.c:1224-1228 f_constant_1, :1232-1240 f_ratio_type1; [None]: the program ends *)
Definition roll_lambda (k : rolllam) (rmin rmax r : R) : option R :=
  match k with
  | Const1 => Some 1
  | Ratio => if ltR r rmax then Some (Rabs (r - rmin) / (rmax - r)) else None
  end.
(** fd_populate.c:1244-1253 f_exp_type1, :1258-1261 f_exp_type2; [None]: the program ends, or no finite number *)
Definition roll_off (f : rollfun) (k : rolllam) (rmin rmax p r : R) : option R :=
  let e := let? l := roll_lambda k rmin rmax r in
           let? w := cpow (r / rmax) p in Some (exp (- l * w)) in
  match f with
  | ExpCut => if LSS r rmax then e else Some 0
  | ExpAll => e
  end.
(** fd_populate.c:479-495 the blend with the flat metric *)
Definition blend (att : R) (g : sym3) : sym3 :=
  S3 (1 + att * (s00 g - 1)) (att * s01 g) (att * s02 g) (1 + att * (s11 g - 1)) (att * s12 g) (1 + att * (s22 g - 1)).
(** fd_populate.c:424-529 fd_modify_gConf_igConf_dgConf_to_w1flat_w2KS: metric and inverse; the two asserts of
    fd_populate.h:15 *)
Definition w1flat_w2KS (f : rollfun) (k : rolllam) (rmin rmax p : R) (ctr q : vec) (g : sym3) : option (sym3 * sym3) :=
  if negb (ltR 0 rmin) || negb (ltR 0 rmax) then None else
  let x := q 0%nat - ctr 0%nat in let y := q 1%nat - ctr 1%nat in let z := q 2%nat - ctr 2%nat in
  let r := sqrt (Pow2 x + Pow2 y + Pow2 z) in
  let? att := roll_off f k rmin rmax p r in
  let gc := blend att g in
  let? ig := Matrix_Inverse_3x3_Symmetric gc in Some (gc, ig).
(** fd_populate.c:536-598 fd_modify_trK_to_wtrK_compute_dtrK (the value of trK) and, with the lapse in place of
    trK, :1064-1119 fd_populate_alpha_wKerrSchild *)
Definition w_scaled (f : rollfun) (k : rolllam) (rmin rmax p : R) (ctr q : vec) (old : R) : option R :=
  if negb (ltR 0 rmin) || negb (ltR 0 rmax) then None else
  let x := q 0%nat - ctr 0%nat in let y := q 1%nat - ctr 1%nat in let z := q 2%nat - ctr 2%nat in
  let r := sqrt (Pow2 x + Pow2 y + Pow2 z) in
  let? att := roll_off f k rmin rmax p r in Some (att * old).

(** the six stored components of the Kerr-Schild metric at a node *)
Definition ks_sym (P : kspar) (ctr q : vec) : sym3 :=
  S3 (ks_metric P ctr q 0 0) (ks_metric P ctr q 0 1) (ks_metric P ctr q 0 2)
     (ks_metric P ctr q 1 1) (ks_metric P ctr q 1 2) (ks_metric P ctr q 2 2).
(** fd_populate.c:927-1015 fd_populate_psi_alphaPsi_beta_ConfKerrSchild with
    fd_KerrSchild_psi_alpha_beta.c:88-89: (psi, alphaPsi, beta) *)
Definition conf_ks_fields (P : kspar) (ctr q : vec) : option (R * R * vec) :=
  match ks_populate P ctr q with
  | None => None
  | Some (ig, al, be) =>
    match scale_to_BSSN_metric_3d (ks_sym P ctr q) false false true with
    | Some (_, _, Some sp) => Some (1 * sp, al * sp, be)
    | _ => None
    end
  end.
(** fd_populate.c:600-648 fd_populate_gConf_igConf_dgConf_ConfKerrSchild as its caller calls it (BssnModel.v has the
    null stem): the conformal metric and its inverse *)
Definition conf_ks_metric (P : kspar) (ctr q : vec) : option (sym3 * sym3) :=
  match fd_populate_ConfKerrSchild (Some (ks_sym P ctr q)) (ks_sym P ctr q) with
  | Scaled (Some (Some g, Some ig, _)) => Some (g, ig)
  | _ => None
  end.

(** fd_populate.c:1147-1158 fd_populate_psi_alphaPsi_beta_IsoSchild: (psi, alphaPsi); beta is the zero a fresh
    array holds.  [None]: division by zero *)
Definition iso_fields (M : R) (ctr q : vec) : option (R * R) :=
  let x := q 0%nat - ctr 0%nat in let y := q 1%nat - ctr 1%nat in let z := q 2%nat - ctr 2%nat in
  let r := sqrt (Pow2 x + Pow2 y + Pow2 z) in
  let? m := fdiv M (2 * r) in
  let? alpha := fdiv (1 - m) (1 + m) in
  let psi := 1 + m in
  Some (psi, alpha * psi).
(** bh_bh.c:127-128 and :157-158: perfect_S2_radius of the two start-offs *)
Definition iso_radius (irr : R) : R := 5 / 10 * irr.
Definition pg_radius (irr : R) : R := 2 * irr.

(** fd_populate.c:131-158 fd_beta_and_dbeta_PGSchild; [None]: no finite number (or, never here, the end of the
    program in the transformation) *)
Definition pg_beta (M : R) (ctr q : vec) : option vec3 :=
  let x := q 0%nat - ctr 0%nat in let y := q 1%nat - ctr 1%nat in let z := q 2%nat - ctr 2%nat in
  let r := sqrt (Pow2 x + Pow2 y + Pow2 z) in
  let? c := fdiv z r in
  let th := acos c in
  let ph := arctan y x in
  let? m := fdiv (2 * M) r in
  if ltR m 0 then None else
  match spheNcart_transformation r th ph false true (V3 (sqrt m) 0 0) with
  | Some o => o
  | None => None
  end.
(** fd_populate.c:1201-1205: psi and alphaPsi of the Painleve-Gullstrand slice *)
Definition pg_psi : R := 1.
Definition pg_alphaPsi : R := 1.

(** fd_PGSchild_Kij_trK.c:18-72 at a node: alpha is 1., db i k the derivative of shift component i along k *)
Definition pg_Kij (db : nat -> nat -> R) (i j : nat) : R := GenPgKij.store_Kij (GenPgKij.mk 1 db) (fun _ _ => 0) i j.
Definition pg_trK (db : nat -> nat -> R) : R := GenPgKij.out_trKij (GenPgKij.mk 1 db).
(** fd_KerrSchild_Kij_trK.c:103-208 at a node *)
Definition ks_Kij (P : kspar) (ctr q : vec) (Chris : nat -> nat -> nat -> R) (ig : nat -> nat -> R) (db : nat -> nat -> R)
  (i j : nat) : R :=
  GenKsKij.store_Kij (GenKsKij.mk Chris (ks_alpha P (ks_node P ctr q)) (ks_betaD P (ks_node P ctr q)) db ig) (fun _ _ => 0) i j.
Definition ks_trK (P : kspar) (ctr q : vec) (Chris : nat -> nat -> nat -> R) (ig : nat -> nat -> R) (db : nat -> nat -> R) : R :=
  GenKsKij.out_trKij (GenKsKij.mk Chris (ks_alpha P (ks_node P ctr q)) (ks_betaD P (ks_node P ctr q)) db ig).
