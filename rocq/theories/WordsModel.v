(** WordsModel.v - the words of the control parameters of the system.
    Models Src/Main/Modules/Physics/System/sys_tune.c (sys_tune_ADM_momenta, get_func_P_ADM_adjustment) and
    Src/Main/Modules/Physics/Star/star_NS.c (get_func_force_balance_adjustment, force_balance_*, the adjust loop, the
    parameter that selects the extrapolation).  parse_adjust_parameter is in TextToolsModel.v, tune_xCM and tune_yCM in
    ControlModel.v.  SIMPLIFICATIONS: those of the two. *)
From Verif Require Import Base TextModel TextToolsModel.
From Verif Require ControlModel RealBase.
From Coq Require Import Reals.
Open Scope list_scope.
Definition is_word (a : str) (w : string) : bool := strcmp_i (Some a) (Some (S_ w)).

(** ** Momenta *)
Inductive padm := ByX | ByY.     (* Py_ADM_is0_by_x_CM, Px_ADM_is0_by_y_CM *)
(** sys_tune.c:70-95 get_func_P_ADM_adjustment; None = the null function *)
Definition P_ADM_func (adjust : option str) : outcome (option padm) :=
  match adjust with
  | None => Ok None
  | Some a => if is_word a "none" then Ok None
              else if is_word a "x_CM" then Ok (Some ByX)
              else if is_word a "y_CM" then Ok (Some ByY)
              else Abort
  end.
(** what the two functions read: the momenta just stored, weight, tolerance, threshold, angular velocity, mass *)
Record sysval := mksys { px : R; py : R; wgt : R; tol : R; thr : R; omg : R; mass : R }.
(** one of the three calls (:50-57) on (x_CM, y_CM) *)
Definition P_ADM_run (v : sysval) (f : option padm) (c : R * R) : R * R :=
  match f with
  | None => c
  | Some ByX => (ControlModel.tune_xCM (py v) (wgt v) (tol v) (thr v) (omg v) (mass v) (fst c), snd c)
  | Some ByY => (fst c, ControlModel.tune_yCM (px v) (wgt v) (tol v) (thr v) (omg v) (mass v) (snd c))
  end.
(** sys_tune.c:12-66 sys_tune_ADM_momenta: all three functions are looked up before the first is called *)
Definition tune_ADM_momenta (par : str) (v : sysval) (c : R * R) : outcome (R * R) :=
  do ws <- parse_adjust_parameter par;
  let '(a0, a1, a2) := ws in
  do f0 <- P_ADM_func a0;
  do f1 <- P_ADM_func a1;
  do f2 <- P_ADM_func a2;
  Ok (P_ADM_run v f2 (P_ADM_run v f1 (P_ADM_run v f0 c))).

(** ** Force balance *)
(** star_NS.c:448-506: the direction (-1: towards the centre of mass) and the parameter each function passes on *)
Inductive fdir := DirCM | Dir (i : nat).
(** star_NS.c:640-695 get_func_force_balance_adjustment *)
Definition force_balance_func (adjust : option str) : outcome (option (fdir * str)) :=
  match adjust with
  | None => Ok None
  | Some a => if is_word a "none" then Ok None
              else if is_word a "d/dx:x_CM" then Ok (Some (Dir 0, S_ "x_CM"))
              else if is_word a "d/dCM:Omega" then Ok (Some (DirCM, S_ "angular_velocity"))
              else if is_word a "d/dy:x_CM" then Ok (Some (Dir 1, S_ "x_CM"))
              else if is_word a "d/dz:x_CM" then Ok (Some (Dir 2, S_ "x_CM"))
              else if is_word a "d/dx:y_CM" then Ok (Some (Dir 0, S_ "y_CM"))
              else if is_word a "d/dy:y_CM" then Ok (Some (Dir 1, S_ "y_CM"))
              else if is_word a "d/dz:y_CM" then Ok (Some (Dir 2, S_ "y_CM"))
              else if is_word a "d/dx:Omega" then Ok (Some (Dir 0, S_ "angular_velocity"))
              else if is_word a "d/dy:Omega" then Ok (Some (Dir 1, S_ "angular_velocity"))
              else if is_word a "d/dz:Omega" then Ok (Some (Dir 2, S_ "angular_velocity"))
              else Abort
  end.
(** star_NS.c star_NS_idealfluid_extrapolate_matter_fields (:308-397): the calls star_NS_extrapolate(field, method), in
    order; strcmp_i of IF_sval *)
Definition extrapolate_calls (par : str) : outcome (list (str * str)) :=
  let both m := Ok [(S_ "phi", S_ m); (S_ "enthalpy", S_ m)] in
  if is_word par "inverse_r_expmr" then both "inverse_r_expmr"%string
  else if is_word par "inverse_r_expmAr" then both "inverse_r_expmAr"%string
  else if is_word par "inverse_r2_expmAr" then both "inverse_r2_expmAr"%string
  else if is_word par "enthalpy_expmr_phi_inverse_r2" then Ok [(S_ "enthalpy", S_ "expmr"); (S_ "phi", S_ "inverse_r2")]
  else if is_word par "exp2" then both "exp2"%string
  else if is_word par "poly2" then both "poly2"%string
  else if is_word par "inverse_r2" then both "inverse_r2"%string
  else if is_word par "inverse_r2_expmr" then both "inverse_r2_expmr"%string
  else Abort.
