(** Props_Cubed.v - C81-C85: coordinates of Cartesian and cubed-spherical patches.  CubedSpec.v says what the coordinates mean:
    [point s c h X Y] is the point at height h over the centre c along the ray of (X,Y) of side s, [inner], [outer] are the
    heights of the two surfaces of a patch over (X,Y), [height] the height at the fraction Z between them. *)
From Verif Require Import RealBase CubedModel CubedSpec CubedFinal CubedFinal2 CubedFind CubedLocate.
From Verif Require CubedProofs CubedJac CubedDet CubedAngles.
Open Scope R_scope.

(** C81 (partial). x_of_X gives the point described by (X,Y,Z); X_of_x gives the coordinates back, for every side and type of patch.
    Missing: coordinates closer than 1e-12 to an end (snapped), exactly at the tolerance from an end, or outside the box. *)
Theorem C81_to_cartesian_partial : forall P X Y Z h1 h2 h pf,
  inner P X Y h1 -> outer P X Y h2 -> 0 < h1 < h2 -> 0 < h -> height P h1 h2 Z h ->
  clean3 (X, Y, Z) (cs_min P) (cs_max P) ->
  x_of_X_precision (X, Y, Z) (CS P) pf = (true, Some (point (cs_side P) (cs_c P) h X Y)).
Proof. exact CubedProofs.to_cart. Qed.
Print Assumptions C81_to_cartesian_partial.
Theorem C81_to_patch_partial : forall P X Y Z h1 h2 h pf,
  inner P X Y h1 -> outer P X Y h2 -> 0 < h1 < h2 -> 0 < h -> height P h1 h2 Z h -> 0 < pf ->
  clean3 (X, Y, Z) (cs_min P) (cs_max P) -> off_tol3 (X, Y, Z) (cs_min P) (cs_max P) (/ 100000000 * pf) ->
  X_of_x_precision (point (cs_side P) (cs_c P) h X Y) (CS P) pf = (true, Some (X, Y, Z)).
Proof. exact CubedProofs.to_patch. Qed.
Print Assumptions C81_to_patch_partial.
(** Whatever point is accepted: the coordinates are in the box up to the tolerance, and with a third coordinate Z at most the
    tolerance away they give the point back within 1e-12 relative to its size. *)
Theorem C81_accepted : forall P x pf X, 0 < pf -> get (cs_min P) 2 <= get (cs_max P) 2 ->
  X_of_x_precision x (CS P) pf = (true, Some X) ->
  near_box X (cs_min P) (cs_max P) (/ 100000000 * pf) /\ get (cs_min P) 2 <= get X 2 <= get (cs_max P) 2 /\
  exists Z x', Rabs (Z - get X 2) < / 100000000 * pf /\ (get (cs_min P) 2 <= Z <= get (cs_max P) 2 -> Z = get X 2) /\
    snd (x_of_X_precision (get X 0, get X 1, Z) (CS P) pf) = Some x' /\
    root_square3 x x' < / 1000000000000 * Rmax 1 (Rmax (root_square3 x zero3) (root_square3 x' zero3)).
Proof. exact CubedProofs.to_patch_sound. Qed.
Print Assumptions C81_accepted.
Theorem C81_cartesian : forall mn mx x pf,
  ((forall i, (i < 3)%nat -> get mn i <= get x i <= get mx i) -> off_tol3 x mn mx (/ 100000000) ->
     x_of_X_precision x (CART mn mx) pf = (true, Some x) /\
     exists X, X_of_x_precision x (CART mn mx) pf = (true, Some X) /\
       (clean3 x mn mx -> X = x) /\ (forall i, (i < 3)%nat -> Rabs (get X i - get x i) < 2 * / 1000000000000) /\
       (forall i, (i < 3)%nat -> get mn i + 2 * / 1000000000000 < get mx i ->
          (get mx i - / 1000000000000 < get x i -> get X i = get mx i) /\ (get x i < get mn i + / 1000000000000 -> get X i = get mn i))) /\
  (fst (X_of_x_precision x (CART mn mx) pf) = true -> near_box x mn mx (/ 100000000)) /\
  (fst (x_of_X_precision x (CART mn mx) pf) = true -> near_box x mn mx (/ 100000000)).
Proof. exact cart_box. Qed.
Print Assumptions C81_cartesian.
(** X_of_x followed by x_of_X may miss the point by more than 5e-9, both reporting success. *)
Theorem C81_round_trip_refuted : exists p x X x',
  X_of_x x p = (true, Some X) /\ x_of_X X p = (true, Some x') /\ / 200000000 < root_square3 x x'.
Proof. exact c81_clamp_refuted. Qed.
Print Assumptions C81_round_trip_refuted.
(** A point inside a box, 1e-8 from one of its faces, is not found in it. *)
Theorem C81_hole_refuted : (forall mn mx x pf i, (i < 3)%nat -> get x i = get mx i - / 100000000 \/ get x i = get mn i + / 100000000 ->
    fst (X_of_x_precision x (CART mn mx) pf) = false) /\
  exists mn mx x, (forall i, (i < 3)%nat -> get mn i < get x i < get mx i) /\ x_in_which_patch x [CART mn mx] = None.
Proof. exact c81_hole_refuted. Qed.
Print Assumptions C81_hole_refuted.
Example C81_ex : x_of_X (0, 0, 1 / 2) (CS ex_shell) = (true, Some (0, 0, 4 / 3)) /\ X_of_x (0, 0, 4 / 3) (CS ex_shell) = (true, Some (0, 0, 1 / 2)) /\
  inner ex_shell 0 0 1 /\ outer ex_shell 0 0 2 /\ clean3 (0, 0, 1 / 2) (cs_min ex_shell) (cs_max ex_shell).
Proof. split; [|split]; [apply ex_shell_to; lra|apply ex_shell_to; lra|]. split; [apply ex_inner; auto|]. split; [apply ex_outer; auto|apply ex_clean; lra]. Qed.

(** C82 (partial). The six sides cover all of space around the centre, overlap only on the edges of the cube, and are right-handed;
    the search for a patch returns the first that accepts, and finds every point described by one of six patches. *)
Theorem C82_six_sides : (forall c v : v3, v <> c -> exists s h X Y, 0 < h /\ Rabs X <= 1 /\ Rabs Y <= 1 /\ v = point s c h X Y) /\
  (forall s s' c h h' X Y X' Y', 0 < h -> 0 < h' -> Rabs X <= 1 -> Rabs Y <= 1 -> Rabs X' <= 1 -> Rabs Y' <= 1 ->
     point s c h X Y = point s' c h' X' Y' ->
     h = h' /\ (s = s' -> X = X' /\ Y = Y') /\ (s <> s' -> (Rabs X = 1 \/ Rabs Y = 1) /\ (Rabs X' = 1 \/ Rabs Y' = 1))) /\
  (forall s, vcross (axisX s) (axisY s) = normal s /\ vdot (axisX s) (axisY s) = 0 /\
     vdot (axisX s) (axisX s) = 1 /\ vdot (axisY s) (axisY s) = 1 /\ vdot (normal s) (normal s) = 1).
Proof. exact (conj six_cover (conj six_unique right_handed)). Qed.
Print Assumptions C82_six_sides.
Theorem C82_search : forall x ps,
  (forall i, x_in_which_patch x ps = Some i <->
     (exists p, nth_error ps i = Some p /\ fst (X_of_x x p) = true) /\
     forall j p, (j < i)%nat -> nth_error ps j = Some p -> fst (X_of_x x p) = false) /\
  (x_in_which_patch x ps = None <-> forall p, In p ps -> fst (X_of_x x p) = false) /\
  (forall X i, X_in_which_patch X ps = Some i <->
     (exists p, nth_error ps i = Some p /\ fst (x_of_X X p) = true) /\
     forall j p, (j < i)%nat -> nth_error ps j = Some p -> fst (x_of_X X p) = false) /\
  (forall X, X_in_which_patch X ps = None <-> forall p, In p ps -> fst (x_of_X X p) = false).
Proof. exact which_patch. Qed.
Print Assumptions C82_search.
Theorem C82_located_partial : forall ps (c x : v3), x <> c ->
  (forall s X Y h, Rabs X <= 1 -> Rabs Y <= 1 -> 0 < h -> x = point s c h X Y ->
     exists P h1 h2 Z, In (CS P) ps /\ cs_side P = s /\ cs_c P = c /\ inner P X Y h1 /\ outer P X Y h2 /\ 0 < h1 < h2 /\
       height P h1 h2 Z h /\ clean3 (X, Y, Z) (cs_min P) (cs_max P) /\ off_tol3 (X, Y, Z) (cs_min P) (cs_max P) (/ 100000000)) ->
  exists i p X, x_in_which_patch x ps = Some i /\ nth_error ps i = Some p /\ X_of_x x p = (true, Some X).
Proof. exact six_find. Qed.
Print Assumptions C82_located_partial.
(** The third coordinate is compared with the box. *)
Theorem C82_third_coordinate : forall P X pf, get (cs_min P) 2 <= get (cs_max P) 2 -> fst (x_of_X_precision X (CS P) pf) = true ->
  get (cs_min P) 2 - / 1000000000000 < get X 2 < get (cs_max P) 2 + / 1000000000000.
Proof. exact third_checked. Qed.
Print Assumptions C82_third_coordinate.
(** x_of_X does not compare the first two coordinates with the box: (5,0,0) is accepted by a patch whose box is [-1,1]x[-1,1]x[0,1]. *)
Theorem C82_box_refuted : exists P X, get (cs_max P) 0 < get X 0 /\ fst (x_of_X X (CS P)) = true /\ X_in_which_patch X [CS P] = Some 0%nat.
Proof. exact c82_box_refuted. Qed.
Print Assumptions C82_box_refuted.
Example C82_ex : point UP (0, 0, 0) 2 1 (1 / 2) = point FRONT (0, 0, 0) 2 (1 / 2) 1 /\ point DOWN (1, 2, 3) 2 (1 / 2) (-1 / 4) = (1 / 2, 3, 1) /\
  (exists ps x, x_in_which_patch x ps = Some 1%nat).
Proof.
  split; [|split].
  - rewrite !pt_eq. cbn. f_equal; [f_equal|]; field.
  - rewrite pt_eq. cbn. f_equal; [f_equal|]; field.
  - exists [CART (5, 5, 5) (6, 6, 6); CS ex_shell], (0, 0, 4 / 3). destruct (ex_shell_to (1 / 2) (4 / 3)) as [_ E]; try lra.
    unfold x_in_which_patch, first_such. rewrite E. destruct (fst (X_of_x (0, 0, 4 / 3) (CART (5, 5, 5) (6, 6, 6)))) eqn:Q; auto.
    apply (proj1 (proj2 (cart_box (5, 5, 5) (6, 6, 6) (0, 0, 4 / 3) 1))) in Q. specialize (Q 0%nat ltac:(lia)). cbn in Q. unfold EPS_coord_general in Q. lra.
Qed.

(** C83 (partial). The Jacobian the code stores is the derivative of the patch coordinates with respect to the Cartesian ones, for every
    side and type, and its determinant is one over (height^2 times the derivative of the height along Z), so positive for nested
    surfaces.  Missing: OT_T_SCS patches whose radii vary with the angle (where it is false). *)
Theorem C83_jacobian_partial : forall P n l q X, (l < 3)%nat -> jn_X n = X -> X_raw P (jn_x n) = Some X -> surfaces_ok P n ->
  exists J, JT P n q l = Some J /\
  exists f, near0 (fun t => X_raw P (move (jn_x n) l t) = Some (f t)) /\ derivable_pt_lim (fun t => comp q (f t)) 0 J.
Proof. exact CubedJac.jacobian. Qed.
Print Assumptions C83_jacobian_partial.
Theorem C83_determinant_partial : forall P n X Y Z h1 h2 h,
  jn_X n = (X, Y, Z) -> jn_x n = point (cs_side P) (cs_c P) h X Y ->
  inner P X Y h1 -> outer P X Y h2 -> 0 < h1 < h2 -> 0 < h -> height P h1 h2 Z h -> surfaces_ok P n ->
  exists J, (forall q l, (l < 3)%nat -> JT P n q l = Some (J q l)) /\
    (outermost P -> det3 J * ((h * h) * (h * h * (/ h1 - / h2))) = 1) /\
    (~ outermost P -> det3 J * ((h * h) * (h2 - h1)) = 1).
Proof. exact CubedDet.jac_det. Qed.
Print Assumptions C83_determinant_partial.
(** The coordinates before snapping, which the Jacobian differentiates, are those of C81. *)
Theorem C83_coordinates : forall P X Y Z h1 h2 h, inner P X Y h1 -> outer P X Y h2 -> 0 < h1 < h2 -> 0 < h -> height P h1 h2 Z h ->
  X_raw P (point (cs_side P) (cs_c P) h X Y) = Some (X, Y, Z).
Proof. exact c83_raw. Qed.
Print Assumptions C83_coordinates.
Theorem C83_varying_radius_refuted : exists P n f,
  X_raw P (jn_x n) = Some (jn_X n) /\ surf_diff (cs_R1f P) (get (jn_X n) 0) (get (jn_X n) 1) (jn_R1 n) (jn_R1a n) (jn_R1b n) /\
  surf_diff (cs_R2f P) (get (jn_X n) 0) (get (jn_X n) 1) (jn_R2 n) (jn_R2a n) (jn_R2b n) /\
  JT P n qc 0 = Some 0 /\ near0 (fun t => X_raw P (move (jn_x n) 0 t) = Some (f t)) /\ derivable_pt_lim (fun t => comp qc (f t)) 0 (- (2 / 9)).
Proof. exact c83_limit_refuted. Qed.
Print Assumptions C83_varying_radius_refuted.
Example C83_ex : exists P n, surfaces_ok P n /\ cs_ty P = SR_T_CS /\ X_raw P (jn_x n) = Some (jn_X n) /\ jn_R1a n = 1.
Proof. exact c83_example. Qed.

(** C84 (partial). Angles.  arctan is the angle in [0,2pi); theta_phi_of_XY_CS gives the polar angles of the ray; the search by angles returns
    a patch and coordinates whose point has these angles up to 1e-12, and finds every direction described by a patch of the list.
    Missing: directions within 1e-12 of the axes, on the equator or the poles. *)
Theorem C84_arctan_partial : forall y x, not_tiny x -> not_tiny y -> (x <> 0 \/ y <> 0) ->
  0 <= arctan y x < 2 * PI /\ sqrt (x * x + y * y) * cos (arctan y x) = x /\ sqrt (x * x + y * y) * sin (arctan y x) = y.
Proof. exact CubedAngles.arctan_ok. Qed.
Print Assumptions C84_arctan_partial.
Theorem C84_angles_partial : forall X Y Z s, not_tiny X -> not_tiny Y ->
  let '(th, ph) := theta_phi_of_XY_CS (X, Y, Z) s in
  0 <= th <= PI /\ 0 <= ph < 2 * PI /\ dir_of th ph = vscale (/ vnorm (ray s X Y)) (ray s X Y).
Proof. exact CubedAngles.theta_phi_ok. Qed.
Print Assumptions C84_angles_partial.
Theorem C84_search_sound : forall Z center th ph ps i X, find_XYZ_and_patch_of_theta_phi_CS Z center th ph ps = Some (i, X) ->
  exists P x, nth_error ps i = Some P /\ get X 2 = Z /\ x_of_X X (CS P) = (true, Some x) /\
    let v := vadd x (vscale (-1) center) in
    (not_tiny (get v 0) -> not_tiny (get v 1) ->
     exists th' ph', 0 <= th' <= PI /\ 0 <= ph' < 2 * PI /\ vscale (/ vnorm v) v = dir_of th' ph' /\
       Rabs (th' - th) < / 1000000000000 /\ Rabs (ph' - ph) < / 1000000000000).
Proof. exact find_sound. Qed.
Print Assumptions C84_search_sound.
Theorem C84_search_partial : forall Z th ph ps P X Y h1 h2 h t,
  0 < th < PI -> cos th <> 0 -> 0 <= ph < 2 * PI -> off_axes ph -> In P ps ->
  0 < t -> dir_of th ph = vscale t (ray (cs_side P) X Y) ->
  inner P X Y h1 -> outer P X Y h2 -> 0 < h1 < h2 -> 0 < h -> height P h1 h2 Z h -> clean3 (X, Y, Z) (cs_min P) (cs_max P) ->
  / 1000000000000 <= Rabs (h * get (ray (cs_side P) X Y) 0) -> / 1000000000000 <= Rabs (h * get (ray (cs_side P) X Y) 1) ->
  exists i X', find_XYZ_and_patch_of_theta_phi_CS Z (cs_c P) th ph ps = Some (i, X') /\
    (nth_error ps i = Some P -> X' = (X, Y, Z)) /\ (forall j, nth_error ps j = Some P -> (i <= j)%nat).
Proof. exact find_complete. Qed.
Print Assumptions C84_search_partial.
(** arctan drops |y| < 1e-12; the quadrant function, and with it the search by angles, ends the program for phi within 1e-12
    below 2pi and for phi = 1e-12. *)
Theorem C84_snap_refuted :
  (forall y x, 0 < Rabs y < / 1000000000000 -> / 1000000000000 <= x -> sin (arctan y x) = 0 /\ sqrt (x * x + y * y) * sin (arctan y x) <> y) /\
  (forall phi, 2 * PI - / 1000000000000 <= phi < 2 * PI -> arctan_argument_signum phi = None) /\
  arctan_argument_signum (/ 1000000000000) = None.
Proof. exact c84_refuted. Qed.
Print Assumptions C84_snap_refuted.
Example C84_ex : exists th ph X Y h i X', off_axes ph /\ cos th <> 0 /\ dir_of th ph = vscale (/ vnorm (ray UP X Y)) (ray UP X Y) /\
  clean3 (X, Y, 0) (cs_min ex_shell) (cs_max ex_shell) /\ x_of_X (X, Y, 0) (CS ex_shell) = (true, Some (point UP (0, 0, 0) h X Y)) /\
  find_XYZ_and_patch_of_theta_phi_CS 0 (0, 0, 0) th ph [ex_shell] = Some (i, X').
Proof. exact c84_example. Qed.

(** C85 (partial). The node at a point (find_node): found, the last one, if every node is at x or farther than 1e-8 (1 + |x|), for
    |x| > 1.0001; what is returned is near.  x_in_which_patch_force returns, among the patches within reach, the one with the
    smallest displacement, the first of several, with coordinates inside its box; none iff none is within reach. *)
Theorem C85_node_partial : forall x nodes, 1 + / 10000 < vnorm x ->
  (forall y, In y nodes -> y = x \/ / 100000000 * (1 + vnorm x) <= vnorm (vadd x (vscale (-1) y))) ->
  match find_node x nodes with
  | Some i => nth_error nodes i = Some x /\ forall k, nth_error nodes k = Some x -> (k <= i)%nat
  | None => ~ In x nodes
  end.
Proof. exact node_found. Qed.
Print Assumptions C85_node_partial.
Theorem C85_node_near : forall x nodes i, find_node x nodes = Some i ->
  exists y, nth_error nodes i = Some y /\ vnorm (vadd x (vscale (-1) y)) < / 100000000 * (Rmax (1 + / 10000) (vnorm x) + INR (S i)).
Proof. exact node_near. Qed.
Print Assumptions C85_node_near.
(** If node k is at x, node k or a later one within 1e-8 per node passed is returned. *)
Theorem C85_node_exact : forall x nodes k, 1 + / 10000 < vnorm x -> nth_error nodes k = Some x ->
  (forall y, In y nodes -> vnorm (vadd x (vscale (-1) y)) <> / 100000000) ->
  exists i y, find_node x nodes = Some i /\ (k <= i)%nat /\ nth_error nodes i = Some y /\ vnorm (vadd x (vscale (-1) y)) <= / 100000000 * INR (i - k).
Proof. exact node_exact. Qed.
Print Assumptions C85_node_exact.
(** For |x| <= 1.0001 a node exactly at x is never found; and a node 5e-9 away hides the exact one. *)
Theorem C85_node_refuted : (forall x nodes, vnorm x <= 1 + / 10000 ->
    (forall y, In y nodes -> y = x \/ 2 / 100000000 <= vnorm (vadd x (vscale (-1) y))) -> find_node x nodes = None) /\
  exists x y, y <> x /\ find_node x [x; y] = Some 1%nat.
Proof. exact (conj node_refuted node_nearest_refuted). Qed.
Print Assumptions C85_node_refuted.
Theorem C85_force : forall x ps, (forall p, In p ps -> box_ok p) ->
  match x_in_which_patch_force x ps with
  | Some (i, X) => exists p dx X0, nth_error ps i = Some p /\ reaches x p dx /\ snd (X_of_x x p) = Some X0 /\ X = Some (clip3 X0 (pmin p) (pmax p)) /\
      (forall j q dx', nth_error ps j = Some q -> reaches x q dx' -> dx <= dx' /\ ((j < i)%nat -> dx < dx'))
  | None => forall p dx, In p ps -> ~ reaches x p dx
  end.
Proof. exact force_ok. Qed.
Print Assumptions C85_force.
Theorem C85_force_in_box : forall p X, box_ok p -> forall i, (i < 3)%nat -> get (pmin p) i <= get (clip3 X (pmin p) (pmax p)) i <= get (pmax p) i.
Proof. exact clip3_box. Qed.
Print Assumptions C85_force_in_box.
Example C85_ex : (exists x ps, (forall p, In p ps -> box_ok p) /\ x_in_which_patch x ps = None /\ exists X, x_in_which_patch_force x ps = Some (0%nat, Some X)) /\
  find_node (0, 0, 2) [(0, 0, 1); (0, 0, 2); (0, 0, 3)] = Some 1%nat.
Proof. exact (conj force_ex node_ex). Qed.
