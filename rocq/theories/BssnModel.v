(** BssnModel.v - Src/Main/Modules/Maths/Diff_Geom/dg_scale_to_BSSN_metric_3d.c and its caller
    fd_populate_gConf_igConf_dgConf_ConfKerrSchild at one grid node. *)
From Verif Require Import RealBase LinAlg3Model.

(** C pow(x,y) with a non-integer exponent: no finite number for x <= 0 and y < 0, or x < 0;
    SIMPLIFICATION: pow(0, y) with y > 0 is 0 in C, it is never reached here because the
    negative power is taken first. *)
Definition powr (x y : R) : option R := if Rlt_dec 0 x then Some (Rpower x y) else None.

(** dg_scale_to_BSSN_metric_3d.c:95-112 Bssn_g = adm_g*psim4 *)
Definition scale_sym (c : R) (m : sym3) : sym3 :=
  S3 (s00 m * c) (s01 m * c) (s02 m * c) (s11 m * c) (s12 m * c) (s22 m * c).

(** dg_scale_to_BSSN_metric_3d.c:84-160 the loop body.  The three flags are the tests
    if(BSSN_g), if(iBSSN_g), if(Psi); a component of the result that is None is an array
    that is not written.  The literals -0.33333333333333331 and 0.083333333333333329 are
    read as -1/3 and 1/12. *)
Definition scale_to_BSSN_metric_3d (adm_g : sym3) (BSSN_g iBSSN_g Psi : bool)
  : option (option sym3 * option sym3 * option R) :=
  let detgb := Matrix_Determinant_3x3_Symmetric adm_g in
  let psi12 := detgb in
  let? psim4 := powr psi12 (- (1/3)) in
  let? psi := powr psi12 (1/12) in
  let Bssn_g := scale_sym psim4 adm_g in
  let og := if BSSN_g then Some Bssn_g else None in
  let? oi := if iBSSN_g then let? i := Matrix_Inverse_3x3_Symmetric Bssn_g in Some (Some i) else Some None in
  let op := if Psi then Some psi else None in
  Some (og, oi, op).


(** Outcome of the caller: the metric actually scaled, or a NULL stem handed to sprintf("%s%s"). *)
Inductive populated := Scaled (r : option (option sym3 * option sym3 * option R)) | NullStem.

(** Src/Main/Modules/Physics/Free_Data/fd_populate.c:600-645: [g] is the stem argument: None is
    the null pointer, Some m a stem whose arrays hold m at this node; [ks] is the metric
    fd_kerr_schild_g_analytic writes to the arrays of stem gConf. *)
Definition fd_populate_ConfKerrSchild (g : option sym3) (ks : sym3) : populated :=
  let g' := match g with Some _ => Some ks (* if (g) {make it; g = gConf;} *) | None => None end in
  match g' with
  | Some m => Scaled (scale_to_BSSN_metric_3d m true true false)
  | None => NullStem
  end.
