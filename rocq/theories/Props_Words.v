(** Props_Words.v - C160-C162: the words of the control parameters, the star's first fields and its centring. *)
From Verif Require Import Base TextModel TextSpec TextToolsModel WordsModel WordsProofs.
From Verif Require RealBase ControlModel FillerModel StarStart StarStartProofs.
From Coq Require Import Reals Lra Lia.
From Coquelicot Require Import Coquelicot.
Open Scope list_scope.
Local Notation low := (map tolower).

(** C160. The parameter "P_ADM_control_method".  A word w does to (x_CM, y_CM): "none" nothing, "x_CM" the tuning of x_CM by P_y, "y_CM" the
    tuning of y_CM by P_x (C150), all with the momenta measured before.  Three such words in any case, a(x,y,z), act in their order ... *)
Theorem C160_momenta : forall a x y z r v fx fy fz c,
  low a = S_ "adjust" -> (forall w, In w [x; y; z] -> w <> [] /\ ~ In ","%char w /\ ~ In "("%char w /\ ~ In ")"%char w /\ ~ In NUL w) -> ~ In NUL r ->
  (forall w f, In (w, f) [(x, fx); (y, fy); (z, fz)] ->
     (low w = S_ "none" /\ f = fun q => q) \/
     (low w = S_ "x_cm" /\ f = fun q => (ControlModel.tune_xCM (py v) (wgt v) (tol v) (thr v) (omg v) (mass v) (fst q), snd q)) \/
     (low w = S_ "y_cm" /\ f = fun q => (fst q, ControlModel.tune_yCM (px v) (wgt v) (tol v) (thr v) (omg v) (mass v) (snd q)))) ->
  tune_ADM_momenta (a ++ "("%char :: x ++ ","%char :: y ++ ","%char :: z ++ ")"%char :: r) v c = Ok (fz (fy (fx c))).
Proof.
  intros a x y z r v fx fy fz c Ha P Hr H.
  assert (E : forall w f, In (w, f) [(x, fx); (y, fy); (z, fz)] -> effect v w f).
  { intros w f I. destruct (H w f I) as [[L ->]|[[L ->]|[L ->]]]; constructor; exact L. }
  apply (momenta_ok a x y z r); auto; try (apply P; cbn; tauto); apply E; cbn; tauto.
Qed.
Print Assumptions C160_momenta.
(** ... and the order of the words does not matter ([effect v x fx]: fx is what the word x does, as above) *)
Theorem C160_order : forall v x y fx fy c, effect v x fx -> effect v y fy -> fx (fy c) = fy (fx c).
Proof. exact effects_commute. Qed.
Print Assumptions C160_order.
(** an unknown word stops the program before anything is changed; "none" alone changes nothing *)
Theorem C160_abort : forall a x y z r v c,
  low a = S_ "adjust" -> (forall w, In w [x; y; z] -> w <> [] /\ ~ In ","%char w /\ ~ In "("%char w /\ ~ In ")"%char w /\ ~ In NUL w) -> ~ In NUL r ->
  (exists w, In w [x; y; z] /\ low w <> S_ "none" /\ low w <> S_ "x_cm" /\ low w <> S_ "y_cm") -> tune_ADM_momenta (a ++ "("%char :: x ++ ","%char :: y ++ ","%char :: z ++ ")"%char :: r) v c = Abort.
Proof.
  intros a x y z r v c Ha P Hr (w & I & N1 & N2 & N3). apply (momenta_abort a x y z r); auto; try (apply P; cbn; tauto).
  unfold known. intros (Kx & Ky & Kz). destruct I as [<-|[<-|[<-|[]]]]; tauto.
Qed.
Print Assumptions C160_abort.
Theorem C160_none : forall par v c, low par = S_ "none" -> tune_ADM_momenta par v c = Ok c.
Proof. exact momenta_none. Qed.
Print Assumptions C160_none.
(** Repeating a word repeats its correction of the same, already measured momentum: with the response of C150 the remaining momentum is 1 - 2W of the old one instead of (1 - W). *)
Theorem C160_twice_refuted : forall p W dP thr Om M x0, (Om <> 0 -> M <> 0 -> dP + RealBase.ROUND_OFF_ERR < Rabs p < thr - RealBase.ROUND_OFF_ERR ->
  let x2 := ControlModel.tune_xCM p W dP thr Om M (ControlModel.tune_xCM p W dP thr Om M x0) in p - Om*M*(x2 - x0) = (1 - 2*W)*p)%R.
Proof. exact twice_x. Qed.
Print Assumptions C160_twice_refuted.
(** Texts that are not of the documented form are not rejected: a stray "none" switches the tuning off, a missing parenthesis is accepted, words in excess are ignored. *)
Theorem C160_loose_refuted : forall v c, 
  tune_ADM_momenta (S_ "x_CM none") v c = Ok c /\ tune_ADM_momenta (S_ "adjust()") v c = Ok c /\
  tune_ADM_momenta (S_ "adjust(x_CM,y_CM") v c = tune_ADM_momenta (S_ "adjust(x_CM,y_CM)") v c /\
  tune_ADM_momenta (S_ "adjust(none,none,none,rubbish)") v c = Ok c.
Proof. intros v c. repeat split; vm_compute; reflexivity. Qed.
Print Assumptions C160_loose_refuted.
(** The words of the force balance parameter: each of the ten, in any case, chooses its direction and the parameter it changes; "none" nothing; any other stops the program. *)
Theorem C160_balance : forall a,
  (forall w d p, In (w, (d, p))
    [("d/dx:x_CM", (Dir 0, "x_CM")); ("d/dy:x_CM", (Dir 1, "x_CM")); ("d/dz:x_CM", (Dir 2, "x_CM")); ("d/dx:y_CM", (Dir 0, "y_CM")); ("d/dy:y_CM", (Dir 1, "y_CM")); ("d/dz:y_CM", (Dir 2, "y_CM"));
     ("d/dx:Omega", (Dir 0, "angular_velocity")); ("d/dy:Omega", (Dir 1, "angular_velocity")); ("d/dz:Omega", (Dir 2, "angular_velocity")); ("d/dCM:Omega", (DirCM, "angular_velocity"))]%string ->
     low a = low (S_ w) -> force_balance_func (Some a) = Ok (Some (d, S_ p))) /\
  (low a = S_ "none" -> force_balance_func (Some a) = Ok None) /\
  (low a <> S_ "none" -> (forall w, In w ["d/dx:x_CM"; "d/dy:x_CM"; "d/dz:x_CM"; "d/dx:y_CM"; "d/dy:y_CM"; "d/dz:y_CM"; "d/dx:Omega"; "d/dy:Omega"; "d/dz:Omega"; "d/dCM:Omega"]%string ->
     low a <> low (S_ w)) -> force_balance_func (Some a) = Abort).
Proof.
  intros a. split; [intros w d p I H; exact (balance_in a w d p I H)|]. split; [exact (balance_none a)|].
  intros N T. apply balance_abort; [exact N|]. intros w d p I. apply T. apply (in_map fst) in I. exact I.
Qed.
Print Assumptions C160_balance.
(** The words of "extrapolate_matter_fields": each, in any case, extrapolates the potential and the enthalpy once, by the method of that name, or by the two methods the mixed one names; every other
    stops the program; all methods are ones the extrapolation knows (C145_aborts). *)
Theorem C160_extrapolate : forall a,
  (forall w, In w ["inverse_r_expmr"; "inverse_r_expmAr"; "inverse_r2_expmAr"; "exp2"; "poly2"; "inverse_r2"; "inverse_r2_expmr"]%string -> low a = low (S_ w) ->
     extrapolate_calls a = Ok [(S_ "phi", S_ w); (S_ "enthalpy", S_ w)]) /\
  (low a = S_ "enthalpy_expmr_phi_inverse_r2" -> extrapolate_calls a = Ok [(S_ "enthalpy", S_ "expmr"); (S_ "phi", S_ "inverse_r2")]) /\
  ((forall w, In w ["inverse_r_expmr"; "inverse_r_expmAr"; "inverse_r2_expmAr"; "enthalpy_expmr_phi_inverse_r2"; "exp2"; "poly2"; "inverse_r2"; "inverse_r2_expmr"]%string -> low a <> low (S_ w)) ->
     extrapolate_calls a = Abort) /\
  (forall l f m, extrapolate_calls a = Ok l -> In (f, m) l ->
     exists w, m = S_ w /\ In w ["inverse_r_expmAr"; "inverse_r_expmr"; "poly2"; "exp2"; "inverse_r2"; "inverse_r2_expmr"; "inverse_r2_expmAr"; "expmr"]%string).
Proof.
  intros a. split; [|split; [|split]].
  - intros w I H. rewrite (calls_same a w H). clear a H. repeat (destruct I as [<-|I]; [reflexivity|]). destruct I.
  - intros H. rewrite (calls_same a "enthalpy_expmr_phi_inverse_r2" H). reflexivity.
  - exact (calls_abort a).
  - intros l f m H I. exact (calls_known a l H f m I).
Qed.
Print Assumptions C160_extrapolate.
Example C160_ex : tune_ADM_momenta (S_ "Adjust(X_cm,none,y_CM)") (mksys 0 0 1 1 2 3 4) (5%R, 6%R) =
    Ok (ControlModel.tune_xCM 0 1 1 2 3 4 5, ControlModel.tune_yCM 0 1 1 2 3 4 6) /\
  tune_ADM_momenta (S_ "adjust(x_CM,none,z_CM)") (mksys 0 0 1 1 2 3 4) (5%R, 6%R) = Abort /\
  force_balance_func (Some (S_ "d/DCM:omega")) = Ok (Some (DirCM, S_ "angular_velocity")) /\ force_balance_func (Some (S_ "d/dCM:x_CM")) = Abort /\
  extrapolate_calls (S_ "POLY2") = Ok [(S_ "phi", S_ "poly2"); (S_ "enthalpy", S_ "poly2")] /\ extrapolate_calls (S_ "expmr") = Abort /\ extrapolate_calls (S_ "slow_fall") = Abort.
Proof.
  split; [|repeat split; vm_compute; reflexivity].
  apply (C160_momenta (S_ "Adjust") (S_ "X_cm") (S_ "none") (S_ "y_CM") [] (mksys 0 0 1 1 2 3 4)
    (fun q => (ControlModel.tune_xCM 0 1 1 2 3 4 (fst q), snd q)) (fun q => q) (fun q => (fst q, ControlModel.tune_yCM 0 1 1 2 3 4 (snd q))) (5%R, 6%R)); try reflexivity.
  - intros w [<-|[<-|[<-|[]]]]; (split; [discriminate|]); repeat split; cbv; intuition discriminate.
  - intros [].
  - intros w f [E|[E|[E|[]]]]; injection E as <- <-; cbn [px py wgt tol thr omg mass]; auto.
Qed.

Section Star.
Import RealBase StarStart StarStartProofs.
Open Scope R_scope.
(** C161. The first fields around a star of ADM mass M centred at c.  [slope F p v l]: l is the derivative of F at p along v; dist is the distance.  Outside: psi = 1 + M/2r and
    alphaPsi = 1 - M/2r, both with vanishing Laplacian, and the lapse is the Schwarzschild one, sqrt(1 - 2M/R), of the areal radius R = r psi^2. *)
Theorem C161_outside : forall M c x, 0 <= M -> 0 < dist c x ->
  dist c x * dist c x = (x 0%nat - c 0%nat)^2 + (x 1%nat - c 1%nat)^2 + (x 2%nat - c 2%nat)^2 /\
  out_psi M c x = 1 + M/(2*dist c x) /\ out_alphaPsi M c x = 1 - M/(2*dist c x) /\
  (M/2 <= dist c x -> out_alphaPsi M c x / out_psi M c x = sqrt (1 - 2*M/(dist c x * (out_psi M c x)^2))).
Proof.
  intros M c x HM H. split; [rewrite dist_sq; unfold Pow2; ring|]. split; [unfold out_psi; field; lra|]. split; [rewrite out_alphaPsi_eq by lra; field; lra|].
  intros Hr. apply lapse_schwarzschild; assumption.
Qed.
Print Assumptions C161_outside.
Theorem C161_harmonic : forall M c p F, 0 <= M -> 0 < dist c p -> F = out_psi M c \/ F = out_alphaPsi M c ->
  exists (G : pt -> nat -> R) (a : nat -> R),
    (exists d, 0 < d /\ forall x, (forall i, (i < 3)%nat -> Rabs (x i - p i) < d) -> forall v, slope F x v (v 0%nat * G x 0%nat + v 1%nat * G x 1%nat + v 2%nat * G x 2%nat)) /\
    (forall i, (i < 3)%nat -> slope (fun x => G x i) p (fun j => if Nat.eqb i j then 1 else 0) (a i)) /\ a 0%nat + a 1%nat + a 2%nat = 0.
Proof. intros M c p F HM H [->| ->]; [exact (psi_harmonic M c p H)|exact (alphaPsi_harmonic M c p HM H)]. Qed.
Print Assumptions C161_harmonic.
(** Inside: enthalpy times lapse is constant (hydrostatic equilibrium), and at a surface where the enthalpy is 1, psi is 1 + M/2r and the table's last radius is r psi^2,
    both fields agree with the outer ones. *)
Theorem C161_inside : forall ps hs eos M Rs Omega y c Om x, let s := tov_in ps hs eos M Rs Omega y c Om x in
  i_psi s = ps (dist c x) /\ i_h s = hs (dist c x) /\ i_rho0 s = eos (hs (dist c x)) /\
  (i_h s <> 0 -> i_psi s <> 0 -> i_h s * (i_alphaPsi s / i_psi s) = sqrt (1 - 2*M/Rs)) /\
  (0 <= M -> M/2 <= dist c x -> 0 < dist c x -> hs (dist c x) = 1 -> ps (dist c x) = 1 + M/(2*dist c x) -> Rs = dist c x * (ps (dist c x))^2 ->
     i_psi s = out_psi M c x /\ i_alphaPsi s = out_alphaPsi M c x).
Proof.
  intros ps hs eos M Rs Omega y c Om x s. repeat (split; [reflexivity|]). split; [apply bernoulli|]. intros. apply surface_match; assumption.
Qed.
Print Assumptions C161_inside.
(** The spin part is Om x (x - c): orthogonal to spin and position, of length |Om| |x - c| sin.  The gradient of the potential is (- Omega (c_y - y_CM), 0, 0). *)
Theorem C161_velocity : forall ps hs eos M Rs Omega y c Om x, let s := tov_in ps hs eos M Rs Omega y c Om in let w := i_W (s x) in
  w 0%nat = Om 1%nat*(x 2%nat - c 2%nat) - Om 2%nat*(x 1%nat - c 1%nat) /\ w 1%nat = Om 2%nat*(x 0%nat - c 0%nat) - Om 0%nat*(x 2%nat - c 2%nat) /\
  w 2%nat = Om 0%nat*(x 1%nat - c 1%nat) - Om 1%nat*(x 0%nat - c 0%nat) /\
  w 0%nat * Om 0%nat + w 1%nat * Om 1%nat + w 2%nat * Om 2%nat = 0 /\
  forall v, slope (fun x => i_phi (s x)) x v (v 0%nat * (- Omega*(c 1%nat - y))).
Proof.
  intros ps hs eos M Rs Omega y c Om x s w. destruct (spin_rotation ps hs eos M Rs Omega y c Om x) as (A & _ & _ & B).
  repeat (split; [first [exact (B 0%nat ltac:(lia))|exact (B 1%nat ltac:(lia))|exact (B 2%nat ltac:(lia))|exact A]|]). intros v. apply phi_slope.
Qed.
Print Assumptions C161_velocity.
(** The orbital velocity of the centre is Omega x (c - CM) = (- Omega (c_y - y_CM), Omega (c_x - x_CM), 0): the potential has only its first component. *)
Theorem C161_velocity_refuted : forall ps hs eos M Rs Omega y xCM c Om x, Omega <> 0 -> c 0%nat <> xCM ->
  exists l, slope (fun x => i_phi (tov_in ps hs eos M Rs Omega y c Om x)) x (fun j => if Nat.eqb 1 j then 1 else 0) l /\ l = 0 /\ Omega*(c 0%nat - xCM) <> 0.
Proof.
  intros ps hs eos M Rs Omega y xCM c Om x HO Hc. eexists. split; [apply phi_slope|]. cbn [Nat.eqb]. split; [ring|]. apply Rmult_integral_contrapositive. split; [exact HO|lra].
Qed.
Print Assumptions C161_velocity_refuted.
Definition ex_c : pt := fun _ => 0.
Definition ex_x : pt := fun i => match i with O => 3 | 1%nat => 4 | _ => 0 end.
Example C161_ex : dist ex_c ex_x = 5 /\ out_psi 2 ex_c ex_x = 6/5 /\ out_alphaPsi 2 ex_c ex_x = 4/5 /\
  i_alphaPsi (tov_in (fun _ => 6/5) (fun _ => 1) (fun h => h) 2 (36/5) (1/10) 0 ex_c ex_c ex_x) = 4/5 /\
  i_W (tov_in (fun _ => 6/5) (fun _ => 1) (fun h => h) 2 (36/5) (1/10) 0 ex_c (fun i => if Nat.eqb i 2 then 1 else 0) ex_x) 1%nat = 3.
Proof.
  assert (D : dist ex_c ex_x = 5). { unfold dist, ex_c, ex_x, Pow2. replace ((3-0)*(3-0) + (4-0)*(4-0) + (0-0)*(0-0)) with (5*5) by ring. apply sqrt_square. lra. }
  assert (P : out_psi 2 ex_c ex_x = 6/5) by (unfold out_psi; rewrite D; field).
  assert (A : out_alphaPsi 2 ex_c ex_x = 4/5) by (rewrite out_alphaPsi_eq by (rewrite D; lra); rewrite D; field).
  split; [exact D|]. split; [exact P|]. split; [exact A|]. split.
  - rewrite <- A. apply (surface_match (fun _ => 6/5) (fun _ => 1)); rewrite ?D; try lra.
  - cbn. unfold ex_c. ring.
Qed.

(** C162. Centring of the star.  The position used is the root of the enthalpy's derivatives if the root finder succeeded or its residual is small, else the centre itself, with which nothing is done. *)
Theorem C162_where : forall tolerance c found ok residual,
  (ok = true \/ residual < sqrt tolerance - ROUND_OFF_ERR -> where_dh0 tolerance c found ok residual = found) /\
  (ok = false -> sqrt tolerance - ROUND_OFF_ERR <= residual -> where_dh0 tolerance c found ok residual = c).
Proof.
  intros tol c f ok res. unfold where_dh0, LSS. split.
  - intros [->|H]; [reflexivity|]. destruct (ltR_spec res (sqrt tol - ROUND_OFF_ERR)); [|lra]. destruct ok; reflexivity.
  - intros -> H. destruct (ltR_spec res (sqrt tol - ROUND_OFF_ERR)); [lra|reflexivity].
Qed.
Print Assumptions C162_where.
(** a position outside the star's patches interrupts the search *)
Theorem C162_interrupt : forall inside dh i x, (inside x = true -> dh_eq inside dh i x = (dh i x, false)) /\ (inside x = false -> snd (dh_eq inside dh i x) = true).
Proof. intros inside dh i x. unfold dh_eq. split; intros ->; reflexivity. Qed.
Print Assumptions C162_interrupt.
Theorem C162_idle : forall W c Rc dh h fd x, (forall i, (i < 3)%nat -> Rabs (Rc i - c i) < ROUND_OFF_ERR) -> taylor W c Rc dh h x = h x /\ drawn W c Rc fd h x = h x.
Proof. exact idle. Qed.
Print Assumptions C162_idle.
(** Taylor expansion: if some coordinate of the shift reaches ROUND_OFF_ERR, the derivative of the new enthalpy is the old one minus W times the old one at the centre, everywhere where there is one;
    at the centre a fraction 1 - W remains (none for W = 1) and the value is unchanged. *)
Theorem C162_taylor : forall W c Rc dh h p dp, (exists i, (i < 3)%nat /\ ROUND_OFF_ERR <= Rabs (Rc i - c i)) ->
  (forall v, slope h p v (v 0%nat * dp 0%nat + v 1%nat * dp 1%nat + v 2%nat * dp 2%nat)) ->
  (forall v, slope (taylor W c Rc dh h) p v (v 0%nat * (dp 0%nat - W * dh 0%nat) + v 1%nat * (dp 1%nat - W * dh 1%nat) + v 2%nat * (dp 2%nat - W * dh 2%nat))) /\
  taylor W c Rc dh h c = h c.
Proof. intros W c Rc dh h p dp S H. split; [exact (taylor_ok W c Rc dh h p dp S H)|apply taylor_value]. Qed.
Print Assumptions C162_taylor.
(** Drawing by interpolation: the new enthalpy at x is (1 - W) h(x) + W h(x + Rc - c), the old one where that position is in no patch; so its derivative at the centre is (1 - W) times the old one if h has
    a critical point at Rc, and W = 1 carries the whole profile from Rc to the centre. *)
Theorem C162_drawn : forall W c Rc h dc, (exists i, (i < 3)%nat /\ ROUND_OFF_ERR <= Rabs (Rc i - c i)) ->
  (forall v, slope h c v (v 0%nat * dc 0%nat + v 1%nat * dc 1%nat + v 2%nat * dc 2%nat)) -> (forall v, slope h Rc v 0) ->
  (forall v, slope (drawn W c Rc (fun _ => true) h) c v ((1 - W) * (v 0%nat * dc 0%nat + v 1%nat * dc 1%nat + v 2%nat * dc 2%nat))) /\
  (forall x, drawn 1 c Rc (fun _ => true) h x = h (fun i => x i + (Rc i - c i))) /\
  (forall fd x, fd (fun i => x i + (Rc i - c i)) = false -> drawn W c Rc fd h x = h x).
Proof.
  intros W c Rc h dc S Hc HR. split; [|split; [exact (drawn_full c Rc h S)|intros; apply drawn_away; assumption]].
  intros v. eapply slope_eq; [apply (drawn_ok W c Rc h dc (fun _ => 0) S Hc)|].
  - intros u. eapply slope_eq; [apply HR|]. unfold dot. ring.
  - unfold dot. ring.
Qed.
Print Assumptions C162_drawn.
Definition ex_h (x : pt) : R := 2 - ((x 0%nat - 1)*(x 0%nat - 1) + x 1%nat*x 1%nat + x 2%nat*x 2%nat).
Definition ex_R : pt := fun i => match i with O => 1 | _ => 0 end.
Example C162_ex : (exists i, (i < 3)%nat /\ ROUND_OFF_ERR <= Rabs (ex_R i - ex_c i)) /\ (forall v, slope ex_h ex_R v 0) /\
  (forall v, slope ex_h ex_c v (v 0%nat * 2 + v 1%nat * 0 + v 2%nat * 0)) /\
  (forall v, slope (taylor 1 ex_c ex_R (fun i => match i with O => 2 | _ => 0 end) ex_h) ex_c v 0) /\ (forall v, slope (drawn 1 ex_c ex_R (fun _ => true) ex_h) ex_c v 0) /\
  drawn 1 ex_c ex_R (fun _ => true) ex_h ex_c = 2 /\ taylor 1 ex_c ex_R (fun i => match i with O => 2 | _ => 0 end) ex_h ex_c = 1.
Proof.
  assert (S : exists i, (i < 3)%nat /\ ROUND_OFF_ERR <= Rabs (ex_R i - ex_c i)).
  { exists 0%nat. split; [lia|]. unfold ex_R, ex_c. rewrite Rminus_0_r, Rabs_R1. unfold ROUND_OFF_ERR. lra. }
  assert (HR : forall v, slope ex_h ex_R v 0).
  { intros v. unfold slope, ex_h, ex_R. apply is_derive_Reals. auto_derive; [trivial|ring]. }
  assert (Hc : forall v, slope ex_h ex_c v (v 0%nat * 2 + v 1%nat * 0 + v 2%nat * 0)).
  { intros v. unfold slope, ex_h, ex_c. apply is_derive_Reals. auto_derive; [trivial|ring]. }
  split; [exact S|]. split; [exact HR|]. split; [exact Hc|]. split; [|split; [|split]].
  - intros v. destruct (C162_taylor 1 ex_c ex_R (fun i => match i with O => 2 | _ => 0 end) ex_h ex_c (fun i => match i with O => 2 | _ => 0 end) S Hc) as [T _].
    eapply slope_eq; [apply T|ring].
  - intros v. destruct (C162_drawn 1 ex_c ex_R ex_h (fun i => match i with O => 2 | _ => 0 end) S Hc HR) as [T _]. eapply slope_eq; [apply T|ring].
  - rewrite (drawn_full ex_c ex_R ex_h S). unfold ex_h, ex_c, ex_R. ring.
  - rewrite taylor_value. unfold ex_h, ex_c. ring.
Qed.
End Star.
