(** Props_Eos.v - property theorems C69-C75: equations of state. *)
From Verif Require Import RealBase EosModel EosSpec EosProofs EosPwp EosFinal.
From Verif Require Base.
Import Base(outcome, Ok, Abort, UB, obind).
Open Scope R_scope.

(** C69. For every exponent above 1, every K > 0 and every enthalpy h >= 1 + 1e-12 the polytropic EoS returns a density,
    pressure, energy density and specific internal energy that satisfy p = K rho^Gamma, e = rho + p/(Gamma-1), h = (e+p)/rho
    and e0 = e/rho - 1; within 1e-12 of h = 1 all four are 0; an exponent within 1e-12 of 1 and a list of more (or fewer)
    than one exponent are refused. *)
Theorem C69_polytrope :
  (forall gamma K0, 1 + ROUND_OFF_ERR <= gamma -> 0 < K0 -> exists e, populate_p [gamma] K0 = ret e /\
     (forall h, 1 + ROUND_OFF_ERR <= h -> exists rho p en0 e0,
        EoS_rho0_h_p e h = ret rho /\ EoS_p_h_p e h = ret p /\ EoS_e_h_p e h = ret en0 /\ EoS_e0_h_p e h = ret e0 /\
        polytrope_at K0 gamma 0 h rho p en0 e0) /\
     (forall h, Rabs (h - 1) < ROUND_OFF_ERR ->
        EoS_rho0_h_p e h = ret 0 /\ EoS_p_h_p e h = ret 0 /\ EoS_e_h_p e h = ret 0 /\ EoS_e0_h_p e h = ret 0)) /\
  (forall gamma K0, length gamma <> 1%nat -> populate_p gamma K0 = Abort) /\
  (forall gamma K0, Rabs (gamma - 1) < ROUND_OFF_ERR -> populate_p [gamma] K0 = Abort).
Proof. exact c69. Qed.
Print Assumptions C69_polytrope.
(** Below h = 1 the polytrope is evaluated like anywhere else: Gamma = 2, K = 1, h = 1/2 gives a negative density. *)
Theorem C69_density_never_negative_refuted : exists e, populate_p [2] 1 = ret e /\ EoS_rho0_h_p e (/2) = ret (- / 4).
Proof. exact below_one_negative. Qed.
Print Assumptions C69_density_never_negative_refuted.
Example C69_ex : 1 + ROUND_OFF_ERR <= 2 /\ 0 < 100 /\ 1 + ROUND_OFF_ERR <= 1.2.
Proof. exact c69_ex. Qed.

(** C70. Above h = 1 + 1e-12 the derivative functions of the polytrope are the derivatives of the value functions, and the
    pressure obeys dp/dh = rho. *)
Theorem C70_polytrope_derivatives : forall gamma K0 e h,
  1 + ROUND_OFF_ERR <= gamma -> 0 < K0 -> populate_p [gamma] K0 = ret e -> 1 + ROUND_OFF_ERR < h ->
  exists rho dr de, EoS_rho0_h_p e h = ret rho /\ EoS_drho0_dh_h_p e h = ret dr /\ EoS_de_dh_h_p e h = ret de /\
    derives (EoS_p_h_p e) h rho /\ derives (EoS_rho0_h_p e) h dr /\ derives (EoS_e_h_p e) h de.
Proof. exact poly_derivs. Qed.
Print Assumptions C70_polytrope_derivatives.
(** At the surface h = 1 of a polytrope with Gamma > 2 neither derivative function returns a finite number. *)
Theorem C70_finite_at_surface_refuted : forall gamma K0 e, 2 < gamma -> 0 < K0 -> populate_p [gamma] K0 = ret e ->
  EoS_drho0_dh_h_p e 1 = Ok None /\ EoS_de_dh_h_p e 1 = Ok None.
Proof. exact poly_surface_derivative. Qed.
Print Assumptions C70_finite_at_surface_refuted.
Example C70_ex : (1 + ROUND_OFF_ERR <= 5/2 /\ 0 < 1 /\ 1 + ROUND_OFF_ERR < 3/2) /\ exists e, populate_p [5/2] 1 = ret e.
Proof. exact c70_ex. Qed.

(** C71. For every table of N >= 2 pieces with exponents above 1, K0 > 0 and increasing positive thresholds, the piecewise
    polytrope is built; the first piece has constant K0 and energy constant 0; the enthalpies of the thresholds increase; and
    at every threshold the pieces on its two sides give the same pressure, energy density and enthalpy. *)
Theorem C71_pwp_construction : forall gamma K0 rho, good_table gamma K0 rho -> exists e, populate_pwp gamma K0 rho = ret e /\
  eN e = length gamma /\ eK e 0 = K0 /\ ea e 0 = 0 /\ eh_th e 0 = 1 /\
  (forall i, (i < length gamma)%nat -> 0 < eK e i /\ en e i * (nth i gamma 0 - 1) = 1) /\
  forall i, (1 <= i < length gamma)%nat -> eh_th e (i-1) < eh_th e i /\
    exists p en0 e0, polytrope_at (eK e (i-1)) (nth (i-1) gamma 0) (ea e (i-1)) (eh_th e i) (nth i rho 0) p en0 e0 /\
                     polytrope_at (eK e i) (nth i gamma 0) (ea e i) (eh_th e i) (nth i rho 0) p en0 e0.
Proof. exact pwp_construct. Qed.
Print Assumptions C71_pwp_construction.
Example C71_ex : good_table [2; 3] 1 [0; 1].
Proof. exact ex_good. Qed.

(** C72. Of every such piecewise polytrope: away from the thresholds (by more than 1e-12) all six functions return the values
    of the polytropic piece the enthalpy falls in and the true derivatives, with dp/dh = rho; at a threshold (when successive
    threshold enthalpies differ by more than 1e-12) the density returned is the tabulated one, with its pressure; and the
    search for a piece succeeds at every enthalpy that is not exactly 1e-12 away from a threshold. *)
Theorem C72_pwp_evaluation :
  (forall gamma K0 rho e, good_table gamma K0 rho -> populate_pwp gamma K0 rho = ret e -> forall i h,
     (i < length gamma)%nat -> 1 + ROUND_OFF_ERR < h -> (i <> O -> eh_th e i + ROUND_OFF_ERR < h) ->
     ((S i < length gamma)%nat -> h < eh_th e (S i) - ROUND_OFF_ERR) ->
     exists rho0 p en0 e0 dr de, EoS_rho0_h_pwp e h = ret rho0 /\ EoS_p_h_pwp e h = ret p /\ EoS_e_h_pwp e h = ret en0 /\ EoS_e0_h_pwp e h = ret e0 /\
       EoS_drho0_dh_h_pwp e h = ret dr /\ EoS_de_dh_h_pwp e h = ret de /\
       polytrope_at (eK e i) (nth i gamma 0) (ea e i) h rho0 p en0 e0 /\
       derives (EoS_p_h_pwp e) h rho0 /\ derives (EoS_rho0_h_pwp e) h dr /\ derives (EoS_e_h_pwp e) h de) /\
  (forall gamma K0 rho e, good_table gamma K0 rho -> populate_pwp gamma K0 rho = ret e ->
     (forall k, (S k < length gamma)%nat -> eh_th e k + ROUND_OFF_ERR < eh_th e (S k)) ->
     forall i, (1 <= i < length gamma)%nat ->
     EoS_rho0_h_pwp e (eh_th e i) = ret (nth i rho 0) /\ EoS_p_h_pwp e (eh_th e i) = ret (eK e i * Rpower (nth i rho 0) (nth i gamma 0))) /\
  (forall gamma K0 rho e, good_table gamma K0 rho -> populate_pwp gamma K0 rho = ret e -> forall h,
     (forall k, (1 <= k < length gamma)%nat -> h <> eh_th e k + ROUND_OFF_ERR /\ h <> eh_th e k - ROUND_OFF_ERR) ->
     exists i, find_threshold_number_h e h = Ok i /\ (i < length gamma)%nat /\ (i = O \/ eh_th e i - ROUND_OFF_ERR < h) /\
       ((S i < length gamma)%nat -> h < eh_th e (S i) + ROUND_OFF_ERR)).
Proof. exact c72. Qed.
Print Assumptions C72_pwp_evaluation.
(** "every enthalpy" is false: exactly 1e-12 below an inner threshold no piece is found and the program stops. *)
Theorem C72_every_enthalpy_refuted : exists e, populate_pwp [2; 2; 2; 2] 1 [0; 1; 2; 3] = ret e /\
  EoS_rho0_h_pwp e (eh_th e 2 - ROUND_OFF_ERR) = Abort.
Proof. exact pwp_gap. Qed.
Print Assumptions C72_every_enthalpy_refuted.
Example C72_ex : exists e, populate_pwp [2; 3] 1 [0; 1] = ret e /\ eh_th e 1 = 3 /\
  inside [2; 3] e 0 2 /\ inside [2; 3] e 1 4 /\ separated [2; 3] e.
Proof. exact c72_ex. Qed.

(** C73. A table with a threshold out of order (by more than 1e-12) before the last one is refused, and so is one with an
    exponent within 1e-12 of 1 (when the thresholds pass). *)
Theorem C73_pwp_refusals :
  (forall gamma K0 rho k, (length gamma <= length rho)%nat -> (1 <= k)%nat -> (k + 1 < length gamma)%nat ->
     nth k rho 0 + ROUND_OFF_ERR < nth (k-1) rho 0 -> populate_pwp gamma K0 rho = Abort) /\
  (forall gamma K0 rho i, (length gamma <= length rho)%nat -> (i < length gamma)%nat -> Rabs (nth i gamma 0 - 1) < ROUND_OFF_ERR ->
     populate_pwp gamma K0 rho = Abort).
Proof. exact c73. Qed.
Print Assumptions C73_pwp_refusals.
(** The last threshold is not looked at: 0, 2, 1 is accepted and gives decreasing enthalpies. *)
Theorem C73_last_threshold_refuted : exists e, populate_pwp [2; 2; 2] 1 [0; 2; 1] = ret e /\ eh_th e 2 < eh_th e 1.
Proof. exact last_threshold_unchecked. Qed.
Print Assumptions C73_last_threshold_refuted.
(** A table with one piece is accepted, and every evaluation then reads past the end of the array of threshold enthalpies. *)
Theorem C73_one_piece_refuted : forall gamma K0 rho h, 1 + / 1000000000000 <= gamma ->
  exists e, populate_pwp [gamma] K0 rho = ret e /\ EoS_rho0_h_pwp e h = UB /\ EoS_p_h_pwp e h = UB.
Proof. exact pwp_one_piece. Qed.
Print Assumptions C73_one_piece_refuted.
(** A list of thresholds with one entry too few is not refused: its end is overrun. *)
Theorem C73_missing_threshold_refuted : forall gamma K0 rho,
  (forall i, (i < length gamma)%nat -> 1 + / 1000000000000 <= nth i gamma 0) ->
  (forall i, (1 <= i < length rho)%nat -> 0 < nth i rho 0) -> (1 <= length rho)%nat -> length gamma = S (length rho) ->
  (forall i, (1 <= i < length rho)%nat -> nth (i-1) rho 0 <= nth i rho 0) -> populate_pwp gamma K0 rho = UB.
Proof. exact pwp_short. Qed.
Print Assumptions C73_missing_threshold_refuted.
Example C73_ex : (length [2;2;2;2] <= length [0;2;1;3])%nat /\ nth 2 [0;2;1;3] 0 + ROUND_OFF_ERR < nth 1 [0;2;1;3] 0.
Proof. exact c73_ex. Qed.

(** C74. Tabular EoS.  The unit factors are those of the quoted CODATA constants to a relative 1e-15 and every row gets the
    enthalpy h = (e+p)/rho0.  For every table and interpolant, pressure and energy are evaluated at the enthalpy moved into
    [floor, ceiling] and are never negative; the density returned satisfies rho0 h = e + p at that enthalpy, and the specific
    internal energy e = rho0 (1 + e0), or is 0 when rho0 and e agree to 1e-12; if the interpolant passes through its points,
    the tabulated pressure and energy are returned at the tabulated enthalpies. *)
Theorem C74_tabular :
  (let G := 66743 / 10^15 in let c := 299792458 in let M := 198841 * 10^25 in let mn := 167492749804 / 10^38 in
   close_to p_FACTOR (G^3 * M^2 / (10 * c^8)) /\ close_to e_FACTOR (1000 * (G^3 * M^2 / c^6)) /\ close_to rho0_FACTOR (10^45 * mn * G^3 * M^2 / c^6)) /\
  (forall f rho e p h, row_h (convert_row f (rho, e, p)) = Some h -> forall rho' e' p', convert_row f (rho, e, p) = (rho', e', p') ->
     rho' <> 0 /\ h * rho' = e' + p' /\
     match f with Tab_Format1 => rho' = rho0_FACTOR * rho /\ e' = e_FACTOR * e /\ p' = p_FACTOR * p
                | Tab_Format2 => rho' = rho /\ p' = p /\ e' = rho' * (1 + e) end) /\
  (forall t h, h_floor t <= h_ceil t -> 0 < h_floor t -> forall p e, p_of_h t h = Ok p -> e_of_h t h = Ok e ->
   exists hc, h_floor t <= hc <= h_ceil t /\ (h_floor t <= h <= h_ceil t -> hc = h) /\ (h < h_floor t -> hc = h_floor t) /\ (h_ceil t < h -> hc = h_ceil t) /\
    p_of_h t hc = Ok p /\ e_of_h t hc = Ok e /\ 0 <= p /\ 0 <= e /\
    exists rho0, rho0_e_p_h t h = Ok rho0 /\ 0 <= rho0 /\ rho0 * hc = e + p /\
      (ROUND_OFF_ERR <= Rabs (rho0 - e) -> 0 < rho0 -> exists e0, e0_of_e_and_rho0 t h = Ok (Some e0) /\ e = rho0 * (1 + e0)) /\
      (Rabs (rho0 - e) < ROUND_OFF_ERR -> e0_of_e_and_rho0 t h = Ok (Some 0))) /\
  (forall interp hfl hce hs es ps t i, set_hermite_log interp hfl hce hs es ps = Ok t ->
    (forall x f, length x = length f -> NoDup x -> forall k, (k < length x)%nat -> fst (interp x f) (nth k x 0) = nth k f 0) ->
    length es = length hs -> length ps = length hs -> (i < length hs)%nat -> NoDup hs -> Forall (fun h => 0 < h) hs ->
    hfl <= nth i hs 0 <= hce -> 0 <= nth i ps 0 -> 0 <= nth i es 0 -> 0 < nth i ps 0 + p_shift t -> 0 < nth i es 0 + e_shift t ->
    p_of_h t (nth i hs 0) = Ok (nth i ps 0) /\ e_of_h t (nth i hs 0) = Ok (nth i es 0)).
Proof. exact (conj factors_codata (conj row_consistent (conj tab_values tab_node))). Qed.
Print Assumptions C74_tabular.
(** A non-empty table with fewer than four rows is not refused: row 3 is read past the end. *)
Theorem C74_short_table_refuted : forall interp a b hs es ps, (length ps < 4)%nat -> set_hermite_log interp a b hs es ps = UB.
Proof. exact short_table. Qed.
Print Assumptions C74_short_table_refuted.
Example C74_ex : (forall x f, length x = length f -> NoDup x -> forall k, (k < length x)%nat -> through x f (nth k x 0) = nth k f 0) /\ exists t, set_hermite_log (fun x f => (through x f, fun _ => 0)) 1 10 [1; 2; 3; 4] [1; 2; 3; 4] [0; 1; 2; 3] = Ok t /\
  p_shift t = 3 /\ e_shift t = 4 /\ p_of_h t 2 = Ok 1 /\ e_of_h t 2 = Ok 2.
Proof. exact c74_ex. Qed.

(** C75 (partial). With shift 0 the derivative functions of the tabular EoS are the derivatives of the values.  Missing: the
    shift is the fourth entry of the table, in practice positive; then the claim is false (next theorem). *)
Theorem C75_tabular_derivatives_partial : forall t h p e,
  h_floor t < h < h_ceil t -> 0 < h -> p_of_h t h = Ok p -> 0 < p -> e_of_h t h = Ok e -> 0 < e ->
  derivable_pt_lim (Hp t) (log10 h) (Hp' t (log10 h)) -> derivable_pt_lim (He t) (log10 h) (He' t (log10 h)) ->
  p_shift t = 0 -> e_shift t = 0 ->
  (exists d, dp_dh t h = Ok d /\ derives_o (p_of_h t) h d) /\ (exists d, de_dh t h = Ok d /\ derives_o (e_of_h t) h d) /\
  (exists d, drho0_dh t h = Ok d /\ derives_o (rho0_e_p_h t) h d).
Proof. exact c75. Qed.
Print Assumptions C75_tabular_derivatives_partial.
(** For every table the true derivatives are (p + shift)/h H' and (e + shift)/h H', the functions return p/h H' and e/h H';
    the difference does not vanish. *)
Theorem C75_shift_ignored_refuted :
  (forall t h p, h_floor t < h < h_ceil t -> 0 < h -> p_of_h t h = Ok p -> 0 < p -> derivable_pt_lim (Hp t) (log10 h) (Hp' t (log10 h)) ->
     derives_o (p_of_h t) h ((p + p_shift t) / h * Hp' t (log10 h)) /\ dp_dh t h = Ok (p / h * Hp' t (log10 h))) /\
  (forall t h e, h_floor t < h < h_ceil t -> 0 < h -> e_of_h t h = Ok e -> 0 < e -> derivable_pt_lim (He t) (log10 h) (He' t (log10 h)) ->
     derives_o (e_of_h t) h ((e + e_shift t) / h * He' t (log10 h)) /\ de_dh t h = Ok (e / h * He' t (log10 h))) /\
  exists t, 0 < p_shift t /\ exists d, derives_o (p_of_h t) 2 d /\ exists d', dp_dh t 2 = Ok d' /\ d' <> d.
Proof. exact c75r. Qed.
Print Assumptions C75_shift_ignored_refuted.
Example C75_ex : exists t, h_floor t < 2 < h_ceil t /\ (exists p, p_of_h t 2 = Ok p /\ 0 < p) /\ (exists e, e_of_h t 2 = Ok e /\ 0 < e) /\
  p_shift t = 0 /\ e_shift t = 0 /\ derivable_pt_lim (Hp t) (log10 2) (Hp' t (log10 2)).
Proof. exact c75_ex. Qed.
