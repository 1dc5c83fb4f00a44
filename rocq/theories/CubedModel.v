(** CubedModel.v - patch coordinates: Cartesian boxes and cubed-spherical patches.
    Source: Src/Main/Modules/Manifold/coordinate_utilities.c, coordinate_utilities.h,
    cubed_spherical_coordinate.c and Src/Main/Modules/Maths/General/general.c.
    Exact reals (RealBase.v).  A NaN or an infinity that can come out of a division by zero or
    of an interpolation outside its interval is [None]; every C comparison with a NaN is
    false, so a [None] never passes a test. *)
From Verif Require Import RealBase.
Open Scope R_scope.

(** Three doubles, double x[3]. *)
Definition v3 : Type := R * R * R.
Definition get (v : v3) (i : nat) : R :=
  let '(x, y, z) := v in match i with O => x | 1%nat => y | _ => z end.
Definition put (v : v3) (i : nat) (r : R) : v3 :=
  let '(x, y, z) := v in
  match i with O => (r, y, z) | 1%nat => (x, r, z) | _ => (x, y, r) end.

(** float.h DBL_MAX = (2^53 - 1) * 2^971, the mark of "not set" for xc1 and xc2. *)
Definition DBL_MAX : R := (2 ^ 53 - 1) * 2 ^ 971.
Definition unset (xc : R) : bool := if Req_EM_T xc DBL_MAX then true else false.

(** Src/Main/Core/core_lib.h Flag_T: the six sides of the cube. *)
Inductive side := UP | DOWN | LEFT | RIGHT | BACK | FRONT.
(** The types of cubed-spherical patches. *)
Inductive cs_type := OB_T_SCS | OT_T_SCS | NS_T_CS | SR_T_CS | OT_T1_CS | OT_T2_CS.

(** patch->CoordSysInfo->CubedSphericalCoord, patch->c, patch->min, patch->max.
    SIMPLIFICATION: R1f and R2f are the interpolants of the surface fields R1_f and R2_f in
    (X0,X1), R_interpolation_CS (cubed_spherical_coordinate.c:1109-1124); the Chebyshev
    sum gives a NaN, here [None], outside the patch's interval (acos of a number > 1). *)
Record cs_patch := {
  cs_side : side; cs_ty : cs_type;
  cs_c : v3; cs_xc1 : R; cs_xc2 : R; cs_R1 : R; cs_R2 : R;
  cs_R1f : R -> R -> option R; cs_R2f : R -> R -> option R;
  cs_min : v3; cs_max : v3 }.

(** cubed_spherical_coordinate.c:8276-8318 SignAndIndex_permutation_CubedSphere: (a,b,c) and S *)
Definition sip (s : side) : nat * nat * nat * R :=
  match s with
  | UP => (0%nat, 1%nat, 2%nat, 1)
  | DOWN => (1%nat, 0%nat, 2%nat, -1)
  | LEFT => (0%nat, 2%nat, 1%nat, -1)
  | RIGHT => (2%nat, 0%nat, 1%nat, 1)
  | BACK => (2%nat, 1%nat, 0%nat, -1)
  | FRONT => (1%nat, 2%nat, 0%nat, 1)
  end.

(** general.c:10-30 root_square with n = 3; a null second argument is the zero vector. *)
Definition root_square3 (v w : v3) : R :=
  sqrt (0 + Pow2 (get v 0 - get w 0) + Pow2 (get v 1 - get w 1) + Pow2 (get v 2 - get w 2)).
Definition zero3 : v3 := (0, 0, 0).
(** general.c:35-38 L2_norm with n = 3 *)
Definition L2_norm3 (v w : v3) : R := root_square3 v w / sqrt 3.
(** general.c:328-331 *)
Definition MaxMag_d (a b : R) : R := if ltR (ABSd b) (ABSd a) then ABSd a else ABSd b.

(** coordinate_utilities.h:12-13 *)
Definition EPS_coord_general : R := / 100000000.
Definition EPS_collocation : R := / 100000000.
(** coordinate_utilities.h:26-30 *)
Definition LSS_coord (x y h : R) : bool := ltR x (y - h).
Definition GRT_coord (x y h : R) : bool := ltR (y + h) x.
Definition EQL_coord (x y h : R) : bool := ltR x (y + h) && ltR (y - h) x.
Definition LSSEQL_coord (x y h : R) : bool := LSS_coord x y h || EQL_coord x y h.
Definition GRTEQL_coord (x y h : R) : bool := GRT_coord x y h || EQL_coord x y h.
(** coordinate_utilities.h:33-36 IsInside *)
Definition IsInside (x mn mx : v3) (h : R) : bool :=
  LSSEQL_coord (get x 0) (get mx 0) h && GRTEQL_coord (get x 0) (get mn 0) h &&
  LSSEQL_coord (get x 1) (get mx 1) h && GRTEQL_coord (get x 1) (get mn 1) h &&
  LSSEQL_coord (get x 2) (get mx 2) h && GRTEQL_coord (get x 2) (get mn 2) h.

(** coordinate_utilities.c:277-278: xc when it is set, otherwise the surface over d. *)
Definition flat_or_surf (xc : R) (Rf : R -> R -> option R) (X0 X1 d : R) : option R :=
  if unset xc then let? r := Rf X0 X1 in Some (r / d) else Some xc.

(** coordinate_utilities.c:272-352, 449-537: the pair (x1,x2) of the three types whose
    third coordinate is linear in x_c *)
Definition lin_ends (P : cs_patch) (sg d X0 X1 : R) : option (R * R) :=
  match cs_ty P with
  | NS_T_CS => let? r := cs_R2f P X0 X1 in Some (cs_xc1 P, sg * r / d)
  | SR_T_CS => let? r := cs_R1f P X0 X1 in Some (sg * r / d, cs_xc2 P)
  | _ => let? a := flat_or_surf (cs_xc1 P) (cs_R1f P) X0 X1 d in
         let? b := flat_or_surf (cs_xc2 P) (cs_R2f P) X0 X1 d in
         Some (sg * a, sg * b)
  end.
(** coordinate_utilities.c:289-296, 328-331, 342-345: (x1, ratio) of the outermost types *)
Definition out_ends (P : cs_patch) (sg d X0 X1 : R) : option (R * R) :=
  match cs_ty P with
  | OT_T1_CS => let? q := fdiv (sg * d * cs_xc1 P) (cs_R2 P) in Some (cs_xc1 P, 1 - q)
  | OT_T2_CS => let? q := fdiv (cs_R1 P) (cs_R2 P) in Some (sg * cs_R1 P / d, 1 - q)
  | _ => let? R1 := cs_R1f P X0 X1 in
         let? R2 := cs_R2f P X0 X1 in
         let? q := fdiv R1 R2 in
         Some (sg * (if unset (cs_xc1 P) then R1 / d else cs_xc1 P), 1 - q)
  end.
Definition is_out (t : cs_type) : bool :=
  match t with OT_T_SCS | OT_T1_CS | OT_T2_CS => true | _ => false end.

(** coordinate_utilities.c:255-354 x_of_X_CS_coord up to its test *)
Definition x_of_X_CS0 (P : cs_patch) (X : v3) : option v3 :=
  let '(a, b, c, sg) := sip (cs_side P) in
  let d := sqrt (1 + Pow2 (get X 0) + Pow2 (get X 1)) in
  let? xk := (if is_out (cs_ty P)
              then let? (x1, ratio) := out_ends P sg d (get X 0) (get X 1) in
                   fdiv x1 (1 - ratio * get X 2)
              else let? (x1, x2) := lin_ends P sg d (get X 0) (get X 1) in
                   Some (x1 + (x2 - x1) * get X 2)) in
  let x := put zero3 c xk in
  let x := put x a (sg * get x c * get X 0) in
  let x := put x b (sg * get x c * get X 1) in
  let x := put x a (get x a + get (cs_c P) a) in
  let x := put x b (get x b + get (cs_c P) b) in
  let x := put x c (get x c + get (cs_c P) c) in
  Some x.

(** coordinate_utilities.c:540-547: snap to an end of the interval within 1e-12 *)
Definition adjust (x mn mx : R) : R :=
  let x := if EQL x mx then mx else x in
  if EQL x mn then mn else x.
Definition adjust3 (X mn mx : v3) : v3 :=
  (adjust (get X 0) (get mn 0) (get mx 0), adjust (get X 1) (get mn 1) (get mx 1),
   adjust (get X 2) (get mn 2) (get mx 2)).
(** coordinate_utilities.c:568-569 *)
Definition clampC (x mn mx : R) : R :=
  let x := if ltR mx x then mx else x in
  if ltR x mn then mn else x.

(** coordinate_utilities.c:425-537: the coordinates before any adjustment *)
Definition X_raw (P : cs_patch) (cart : v3) : option v3 :=
  let x := (get cart 0 - get (cs_c P) 0, get cart 1 - get (cs_c P) 1, get cart 2 - get (cs_c P) 2) in
  let '(i, j, k, sg) := sip (cs_side P) in
  let? X0 := fdiv (sg * get x i) (get x k) in
  let? X1 := fdiv (sg * get x j) (get x k) in
  let d := sqrt (1 + Pow2 X0 + Pow2 X1) in
  let? X2 := (if is_out (cs_ty P)
              then let? (x1, ratio) := out_ends P sg d X0 X1 in
                   let? q := fdiv x1 (get x k) in fdiv (1 - q) ratio
              else let? (x1, x2) := lin_ends P sg d X0 X1 in
                   fdiv (get x k - x1) (x2 - x1)) in
  Some (X0, X1, X2).
(** ... and after the snapping (:540-547) *)
Definition X_adj (P : cs_patch) (cart : v3) : option v3 :=
  let? X := X_raw P cart in Some (adjust3 X (cs_min P) (cs_max P)).
Definition clamp2 (P : cs_patch) (X : v3) : v3 :=
  (get X 0, get X 1, clampC (get X 2) (get (cs_min P) 2) (get (cs_max P) 2)).

(** coordinate_utilities.c:425-572 X_of_x_CS_coord with check_flg = 0; the value is 1 *)
Definition X_of_x_CS_nochk (P : cs_patch) (cart : v3) : option v3 :=
  let? X := X_adj P cart in Some (clamp2 P X).
(** coordinate_utilities.c:255-376 x_of_X_CS_coord with check_flg = 1: the value and x *)
Definition x_of_X_CS (P : cs_patch) (X : v3) : bool * option v3 :=
  match x_of_X_CS0 P X with
  | None => (false, None)
  | Some x =>
      match X_of_x_CS_nochk P x with
      | None => (false, Some x)
      | Some Xt => (EQL (root_square3 X Xt) 0, Some x)
      end
  end.
(** coordinate_utilities.c:425-572 X_of_x_CS_coord with check_flg = 1 *)
Definition X_of_x_CS (P : cs_patch) (cart : v3) (pf : R) : bool * option v3 :=
  match X_adj P cart with
  | None => (false, None)
  | Some X =>
      if IsInside X (cs_min P) (cs_max P) (EPS_coord_general * pf) then
        match x_of_X_CS0 P X with
        | None => (false, Some X)
        | Some xt =>
            let dx := root_square3 cart xt in
            let scale := MaxMag_d (root_square3 cart zero3) (root_square3 xt zero3) in
            let scale := if ltR scale 1 then 1 else scale in
            if EQL (dx / scale) 0 then (true, Some (clamp2 P X)) else (false, Some X)
        end
      else (false, Some X)
  end.

(** A patch, as far as its coordinates go: coordsys Cartesian (with min and max) or
    CubedSpherical.  Any other coordsys ends the program and is not modelled. *)
Inductive cpatch := CART (mn mx : v3) | CS (P : cs_patch).
Definition pmin (p : cpatch) : v3 := match p with CART mn _ => mn | CS P => cs_min P end.
Definition pmax (p : cpatch) : v3 := match p with CART _ mx => mx | CS P => cs_max P end.

(** coordinate_utilities.c:203-216 X_of_x_precision, 379-419 X_of_x_Cartesian_coord *)
Definition X_of_x_precision (x : v3) (p : cpatch) (pf : R) : bool * option v3 :=
  match p with
  | CART mn mx => if IsInside x mn mx EPS_coord_general then (true, Some (adjust3 x mn mx)) else (false, Some x)
  | CS P => X_of_x_CS P x pf
  end.
(** coordinate_utilities.c:221-252 x_of_X_precision, x_of_X_Cartesian_coord.  The precision
    factor is only handed on, never used, on this path. *)
Definition x_of_X_precision (X : v3) (p : cpatch) (pf : R) : bool * option v3 :=
  match p with
  | CART mn mx => (IsInside X mn mx EPS_coord_general, Some X)
  | CS P => x_of_X_CS P X
  end.
(** manifold_lib.h:16-17 *)
Definition X_of_x (x : v3) (p : cpatch) := X_of_x_precision x p 1.
Definition x_of_X (X : v3) (p : cpatch) := x_of_X_precision X p 1.

(** coordinate_utilities.c:1173-1187 x_in_which_patch; the index of the patch, [None] the null pointer *)
Fixpoint first_such {A} (t : A -> bool) (l : list A) : option nat :=
  match l with
  | [] => None
  | p :: l => if t p then Some O else match first_such t l with Some n => Some (S n) | None => None end
  end.
Definition x_in_which_patch (x : v3) (ps : list cpatch) : option nat :=
  first_such (fun p => fst (X_of_x x p)) ps.
(** coordinate_utilities.c:1277-1292 X_in_which_patch *)
Definition X_in_which_patch (X : v3) (ps : list cpatch) : option nat :=
  first_such (fun p => fst (x_of_X X p)) ps.

(** coordinate_utilities.c:1220-1237, 1249-1254 *)
Definition clamp3 (X mn mx : v3) : v3 :=
  (clampC (get X 0) (get mn 0) (get mx 0), clampC (get X 1) (get mn 1) (get mx 1),
   clampC (get X 2) (get mn 2) (get mx 2)).
(** coordinate_utilities.c:1208-1240: one turn of the loop gives the displacement of this patch *)
Definition force_dx (x : v3) (p : cpatch) : option R :=
  let? Xp := snd (X_of_x x p) in
  if IsInside Xp (pmin p) (pmax p) (EPS_coord_general * 10) then
    let? xp := snd (x_of_X (clamp3 Xp (pmin p) (pmax p)) p) in Some (L2_norm3 x xp)
  else None.
(** :1204-1240 the loop; [None] as minimum is DBL_MAX, UINT_MAX *)
Fixpoint force_loop (x : v3) (ps : list cpatch) (i : nat) (best : option (nat * R)) : option (nat * R) :=
  match ps with
  | [] => best
  | p :: ps =>
      let best :=
        match force_dx x p with
        | None => best
        | Some dx => match best with
                     | None => Some (i, dx)
                     | Some (_, m) => if ltR dx m then Some (i, dx) else best
                     end
        end in
      force_loop x ps (S i) best
  end.
(** coordinate_utilities.c:1199-1268 x_in_which_patch_force: the patch index and X *)
Definition x_in_which_patch_force (x : v3) (ps : list cpatch) : option (nat * option v3) :=
  match force_loop x ps 0 None with
  | None => None
  | Some (i, _) =>
      let p := nth i ps (CART zero3 zero3) in
      Some (i, let? X := snd (X_of_x x p) in Some (clamp3 X (pmin p) (pmax p)))
  end.

(** coordinate_utilities.c:579-603 find_node.  [None] is the pair UINT_MAX, NONE. *)
Fixpoint find_node_loop (x : v3) (nodes : list v3) (i : nat) (res : R) (v : option nat) : option nat :=
  match nodes with
  | [] => v
  | y :: nodes =>
      let nrm := root_square3 x y in
      if LSSEQL_coord nrm res EPS_coord_general
      then find_node_loop x nodes (S i) nrm (Some i)
      else find_node_loop x nodes (S i) res v
  end.
Definition find_node (x : v3) (nodes : list v3) : option nat :=
  let res := EPS_collocation * root_square3 x zero3 in
  let res := if GRT res EPS_collocation then res else EPS_collocation in
  find_node_loop x nodes 0 res None.

(** general.c:358-391 arctan *)
Definition arctan (y x : R) : R :=
  if EQL x 0 then
    if EQL y 0 then 0 else if ltR 0 y then PI / 2 else 3 * PI / 2
  else if ltR 0 x then
    if EQL y 0 then 0 else if ltR 0 y then atan (y / x) else 2 * PI - atan (- y / x)
  else
    if EQL y 0 then PI else if ltR 0 y then PI - atan (y / - x) else PI + atan (- y / - x).
(** general.c:394-422 arctan_argument_signum: (y_sign, x_sign); [None]: the program ends *)
Definition arctan_argument_signum (phi : R) : option (R * R) :=
  if ltR phi 0 || leR (2 * PI) phi then None
  else if GRTEQL phi 0 && LSSEQL phi (PI / 2) then Some (1, 1)
  else if GRTEQL phi (PI / 2) && LSSEQL phi PI then Some (1, -1)
  else if GRTEQL phi PI && LSSEQL phi (3 * PI / 2) then Some (-1, -1)
  else if GRTEQL phi (3 * PI / 2) && LSS phi (2 * PI) then Some (-1, 1)
  else None.
(** coordinate_utilities.c:674-712 theta_phi_of_XY_CS, and with the same lines 959-997
    find_theta_phi_of_XYZ_CS: (theta, phi) *)
Definition theta_phi_of_XY_CS (X : v3) (s : side) : R * R :=
  let a := get X 0 in
  let b := get X 1 in
  let d := sqrt (1 + Pow2 a + Pow2 b) in
  match s with
  | UP => (acos (1 / d), arctan b a)
  | DOWN => (acos (-1 / d), arctan a b)
  | LEFT => (acos (b / d), arctan (-1) a)
  | RIGHT => (acos (a / d), arctan 1 b)
  | BACK => (acos (a / d), arctan b (-1))
  | FRONT => (acos (b / d), arctan a 1)
  end.

(** Jacobian functions.  What they read at node p: the node, its patch coordinates, the
    surface fields at p and their derivatives along X and Y (Partial_Derivative of R1_f, R2_f
    with respect to a and b).  A zero denominator gives [None]. *)
Record jnode := { jn_x : v3; jn_X : v3; jn_R1 : R; jn_R2 : R;
                  jn_R1a : R; jn_R1b : R; jn_R2a : R; jn_R2b : R }.
Inductive Aq := qa | qb | qc.
Definition kd (b : bool) : R := if b then 1 else 0.

(** cubed_spherical_coordinate.c:5796-5819 (and the same lines in every JT_ function):
    da/dx^l and db/dx^l; [m] is i for da, j for db *)
Definition JT_ab (sg : R) (m k l : nat) (x : v3) : option R :=
  let? t := fdiv (get x m * kd (Nat.eqb k l)) (get x k) in
  fdiv (sg * (kd (Nat.eqb m l) - t)) (get x k).
(** cubed_spherical_coordinate.c:975-1103 R1_derivative, R2_derivative, R12_derivatives_SCS:
    dR/dx^l = dR/dX da/dx^l + dR/dY db/dx^l *)
Definition dR_dx (Ra Rb Ja Jb : R) : R := Ra * Ja + Rb * Jb.
(** Power3, cubed_spherical_coordinate.h:10 *)
Definition Power3 (a : R) : R := a * Pow2 a.

(** cubed_spherical_coordinate.c:5764-5921 JT_OJ_T_SCS, 5923-6063 JT_OT_T_SCS, 6071-6646
    JT_NS_T_CS_up etc., 6647-7222 JT_SR_T_CS_up etc., 7223-7744 JT_OT_T1_CS_up etc.,
    7745-8272 JT_OT_T2_CS_up etc., reached through make_JacobianT (814-971): dq/dx^l for q = a,
    b, c.  The six functions of a family are the same text up to S and (i,j,k), which are the
    values of [sip] for that side, so one definition serves the six. *)
Definition JT (P : cs_patch) (n : jnode) (q : Aq) (l : nat) : option R :=
  let '(i, j, k, sg) := sip (cs_side P) in
  let x := (get (jn_x n) 0 - get (cs_c P) 0, get (jn_x n) 1 - get (cs_c P) 1, get (jn_x n) 2 - get (cs_c P) 2) in
  let xk := get x k in
  let X := jn_X n in
  let kl := kd (Nat.eqb k l) in
  match q with
  | qa => JT_ab sg i k l x
  | qb => JT_ab sg j k l x
  | qc =>
    let? Ja := JT_ab sg i k l x in
    let? Jb := JT_ab sg j k l x in
    let d2 := 1 + Pow2 (get X 0) + Pow2 (get X 1) in
    let d1 := sqrt d2 in
    let d3 := Power3 d1 in
    let R1 := jn_R1 n in
    let R2 := jn_R2 n in
    let dR1 := dR_dx (jn_R1a n) (jn_R1b n) Ja Jb in
    let dR2 := dR_dx (jn_R2a n) (jn_R2b n) Ja Jb in
    let dd := get X 0 * Ja + get X 1 * Jb in
    match cs_ty P with
    | OB_T_SCS =>
        let xc1 := sg * (if unset (cs_xc1 P) then R1 / d1 else cs_xc1 P) in
        let xc2 := sg * (if unset (cs_xc2 P) then R2 / d1 else cs_xc2 P) in
        let dxc1 := (if unset (cs_xc1 P) then dR1 / d1 - R1 * dd / d3 else 0) * sg in
        let dxc2 := (if unset (cs_xc2 P) then dR2 / d1 - R2 * dd / d3 else 0) * sg in
        let? t := fdiv ((xk - xc1) * (dxc2 - dxc1)) (xc2 - xc1) in
        fdiv ((kl - dxc1) - t) (xc2 - xc1)
    | OT_T_SCS =>
        let? q := fdiv R1 R2 in
        let ratio := 1 - q in
        let dR1 := if unset (cs_xc1 P) then 0 else cs_xc1 P * dd / d1 in
        let dR2 := 0 in
        let? t := fdiv (dR2 * R1) R2 in
        let? dratio := fdiv (- dR1 + t) R2 in
        let xc1 := sg * R1 / d1 in
        let dxc1 := (dR1 / d1 - R1 * dd / d3) * sg in
        let? u := fdiv (xc1 * kl) xk in
        let? v := fdiv (- dxc1 + u) xk in
        fdiv (v - get X 2 * dratio) ratio
    | NS_T_CS =>
        let xc1 := cs_xc1 P in
        let xc2 := sg * R2 / d1 in
        let dxc2 := (dR2 / d1 - R2 * dd / d3) * sg in
        let? t := fdiv ((xk - xc1) * dxc2) (xc2 - xc1) in
        fdiv (kl - t) (xc2 - xc1)
    | SR_T_CS =>
        let xc2 := cs_xc2 P in
        let xc1 := sg * R1 / d1 in
        let dxc1 := (dR1 / d1 - R1 * dd / d3) * sg in
        let? t := fdiv ((xk - xc1) * dxc1) (xc2 - xc1) in
        fdiv (kl - dxc1 + t) (xc2 - xc1)
    | OT_T1_CS =>
        let xc1 := cs_xc1 P in
        let? u := fdiv (sg * d1 * xc1) (cs_R2 P) in
        let L := 1 - u in
        let? w := fdiv (- sg * xc1) (cs_R2 P) in
        let dL := dd / d1 * w in
        let? t := fdiv (xc1 * kl) (Pow2 xk) in
        fdiv (t - get X 2 * dL) L
    | OT_T2_CS =>
        let R1 := cs_R1 P in
        let R2 := cs_R2 P in
        let? u := fdiv R1 R2 in
        let dR := 1 - u in
        let? t := fdiv kl xk in
        fdiv ((t + dd / d2) * sg * R1) (dR * xk * d1)
    end
  end.

(** cubed_spherical_coordinate.c:626-811 make_nodes_CubedSpherical_coord: x of a node whose
    patch coordinates are X and whose surface field values are R1 and R2 (those of its column
    at k = 0): the text of x_of_X_CS_coord with stored values instead of interpolated ones *)
Definition node_x (P : cs_patch) (X : v3) (R1 R2 : R) : option v3 :=
  x_of_X_CS0 {| cs_side := cs_side P; cs_ty := cs_ty P; cs_c := cs_c P; cs_xc1 := cs_xc1 P;
                cs_xc2 := cs_xc2 P; cs_R1 := cs_R1 P; cs_R2 := cs_R2 P;
                cs_R1f := fun _ _ => Some R1; cs_R2f := fun _ _ => Some R2;
                cs_min := cs_min P; cs_max := cs_max P |} X.

(** coordinate_utilities.c:1061-1089: the magnitudes of (X0,X1); tan(phi) is sin/cos.
    SIMPLIFICATION: where a division by zero would give an infinity (phi on an axis, theta on
    the pole or the equator) the model has no number and skips the patch. *)
Definition find_ab (s : side) (theta phi : R) : option (R * R) :=
  let? t := fdiv (sin phi) (cos phi) in
  let ct := cos theta in
  let t2 := Pow2 t in
  let c2 := Pow2 ct in
  match s with
  | UP => let? p := fdiv (1 - c2) (c2 + c2 * t2) in let? q := fdiv (1 - c2) (c2 * (1 + t2)) in Some (sqrt p, t * sqrt q)
  | DOWN => let? p := fdiv (1 - c2) (c2 + c2 * t2) in let? q := fdiv (1 - c2) (c2 * (1 + t2)) in Some (t * sqrt q, sqrt p)
  | LEFT => let? a := fdiv 1 t in let? p := fdiv (c2 + c2 * t2) ((1 - c2) * t2) in Some (a, sqrt p)
  | RIGHT => let? b := fdiv 1 t in let? p := fdiv (c2 + c2 * t2) ((1 - c2) * t2) in Some (sqrt p, b)
  | BACK => let? p := fdiv (c2 + c2 * t2) (1 - c2) in Some (sqrt p, t)
  | FRONT => let? p := fdiv (c2 + c2 * t2) (1 - c2) in Some (t, sqrt p)
  end.
(** coordinate_utilities.c:1092-1124: the signs of (X0,X1); [None]: the program ends *)
Definition find_signs (s : side) (theta phi : R) : option (R * R) :=
  let? (ys, xs) := arctan_argument_signum phi in
  let cs := if ltR 0 (cos theta) then 1 else -1 in
  Some (match s with
        | UP => (xs, ys)
        | DOWN => (ys, xs)
        | LEFT => (xs, cs)
        | RIGHT => (cs, xs)
        | BACK => (cs, ys)
        | FRONT => (ys, cs)
        end).
(** coordinate_utilities.c:1126-1144: is the point of this patch at (theta,phi) from the centre? *)
Definition find_ok (center : v3) (theta phi : R) (P : cs_patch) (X : v3) : bool :=
  match x_of_X X (CS P) with
  | (ins, Some x) =>
      let x := (get x 0 - get center 0, get x 1 - get center 1, get x 2 - get center 2) in
      let r := root_square3 x zero3 in
      match fdiv (get x 2) r with
      | Some w => EQL (acos w) theta && EQL (arctan (get x 1) (get x 0)) phi && ins
      | None => false
      end
  | _ => false
  end.
(** coordinate_utilities.c:1031-1154 find_XYZ_and_patch_of_theta_phi_CS: the patch index and X,
    [None]: the program ends.  X[2] is given. *)
Fixpoint find_XYZ_loop (Z : R) (center : v3) (theta phi : R) (ps : list cs_patch) (i : nat) : option (nat * v3) :=
  match ps with
  | [] => None
  | P :: ps =>
      let? (sa, sb) := find_signs (cs_side P) theta phi in
      match find_ab (cs_side P) theta phi with
      | Some (a, b) =>
          let X := (Rabs a * sa, Rabs b * sb, Z) in
          if find_ok center theta phi P X then Some (i, X) else find_XYZ_loop Z center theta phi ps (S i)
      | None => find_XYZ_loop Z center theta phi ps (S i)
      end
  end.
Definition find_XYZ_and_patch_of_theta_phi_CS (Z : R) (center : v3) (theta phi : R) (ps : list cs_patch) :=
  find_XYZ_loop Z center theta phi ps 0.
