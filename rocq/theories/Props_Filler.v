(** Props_Filler.v - C142-C146: extrapolation of fields into a black hole and out of a star. *)
From Coq Require Import Reals Lra Lia Psatz Ranalysis List Ascii String.
From Verif Require Import RealBase SpectralModel FillerModel FillerSpec FillerProofs FillerProofs2.
From Verif Require Base TextModel FillerNames.
Import Base(outcome, Ok, Abort, UB).
Import ListNotations.
Open Scope R_scope.

(** C142. The Chebyshev filler: at the nodes it writes the values of one polynomial of degree at most 5 in the distance from the centre, with the prescribed value and
    vanishing slope at the centre and the value, slope, second and (vanishing) third derivative prescribed at the surface. The angle of Chebyshev's formula is exact for t = +-1 and for
    t at least ROUND_OFF_ERR away from them, which the two side conditions say. *)
Theorem C142_filler : forall f0 f1 d dd r0, 0 < r0 -> exists P P' P'' : R -> R,
  (exists p0 p1 p2 p3 p4 p5, forall r, P r = p0 + p1*r + p2*r^2 + p3*r^3 + p4*r^4 + p5*r^5) /\
  (forall r, 0 <= r <= r0 -> (r = 0 \/ ROUND_OFF_ERR * r0 <= 2*r) -> (r = r0 \/ ROUND_OFF_ERR * r0 <= 2*(r0 - r)) -> cheb_fill f0 f1 d dd r0 r = P r) /\
  (forall r, derivable_pt_lim P r (P' r)) /\ (forall r, derivable_pt_lim P' r (P'' r)) /\
  P 0 = f0 /\ P' 0 = 0 /\ P r0 = f1 /\ P' r0 = d /\ P'' r0 = dd /\ derivable_pt_lim P'' r0 0.
Proof.
  intros f0 f1 d dd r0 H. destruct (cheb_fill_ok f0 f1 d dd r0 H) as (P & P' & P'' & L & E & R). exists P, P', P''.
  split; [exact L|]. split; [|exact R]. intros r A B C. apply E, good_nodes; assumption.
Qed.
Print Assumptions C142_filler.
(** hence together with the field outside it is twice differentiable at the surface *)
Theorem C142_smooth : forall (r0 dd f0 : R) (u u' : R -> R), 0 < r0 ->
  (forall r, 0 < r -> derivable_pt_lim u r (u' r)) -> derivable_pt_lim u' r0 dd ->
  exists P G', (forall r, 0 <= r <= r0 -> (r = 0 \/ ROUND_OFF_ERR * r0 <= 2*r) -> (r = r0 \/ ROUND_OFF_ERR * r0 <= 2*(r0 - r)) -> cheb_fill f0 (u r0) (u' r0) dd r0 r = P r) /\
    P 0 = f0 /\ (forall r, 0 < r -> derivable_pt_lim (fun r => if Rle_dec r r0 then P r else u r) r (G' r)) /\ G' r0 = u' r0 /\ derivable_pt_lim G' r0 dd.
Proof.
  intros r0 dd f0 u u' H Hu Hd. destruct (cheb_join r0 dd f0 u u' H Hu Hd) as (P & E & E0 & G' & D & V & D2). exists P, G'.
  split; [|auto]. intros r A B C. apply E, good_nodes; assumption.
Qed.
Print Assumptions C142_smooth.
(** on a perfect sphere a node that lies beyond the radius gets the surface value *)
Theorem C142_clamped : forall f0 f1 d dd r0 r, 0 < r0 ->
  (r0 <= r -> cheb_fill_clamped f0 f1 d dd r0 r = f1) /\ (r <= r0 -> cheb_fill_clamped f0 f1 d dd r0 r = cheb_fill f0 f1 d dd r0 r).
Proof. intros f0 f1 d dd r0 r H. split; intros L; [exact (clamped_ok f0 f1 d dd r0 r H L)|exact (clamped_in f0 f1 d dd r0 r L)]. Qed.
Print Assumptions C142_clamped.
Example C142_ex : exists P G' : R -> R, P 0 = 2 /\ cheb_fill 2 (exp 1) (exp 1) (exp 1) 1 (1/2) = P (1/2) /\
  derivable_pt_lim (fun r => if Rle_dec r 1 then P r else exp r) 1 (G' 1) /\ G' 1 = exp 1.
Proof.
  destruct (C142_smooth 1 (exp 1) 2 exp exp) as (P & G' & A & B & C & D & _); [lra|intros; apply derivable_pt_lim_exp|apply derivable_pt_lim_exp|].
  exists P, G'. split; [exact B|]. split; [apply A; unfold ROUND_OFF_ERR; lra|]. split; [apply C; lra|exact D].
Qed.

(** C143. The smoothing functions: 0 below rmin, 1 above rmax, monotone, point symmetric and four times differentiable everywhere. *)
Theorem C143_smoother : forall rmax rmin, rmin < rmax ->
  (forall r, 0 <= smoother r rmax rmin <= 1) /\ (forall r, r <= rmin -> smoother r rmax rmin = 0) /\ (forall r, rmax <= r -> smoother r rmax rmin = 1) /\
  (forall r s, r <= s -> smoother r rmax rmin <= smoother s rmax rmin) /\ (forall r, smoother (rmax + rmin - r) rmax rmin = 1 - smoother r rmax rmin) /\
  exists s1 s2 s3 s4, (forall r, derivable_pt_lim (fun r => smoother r rmax rmin) r (s1 r)) /\
    (forall r, derivable_pt_lim s1 r (s2 r)) /\ (forall r, derivable_pt_lim s2 r (s3 r)) /\ (forall r, derivable_pt_lim s3 r (s4 r)) /\
    (forall r, r <= rmin \/ rmax <= r -> s1 r = 0 /\ s2 r = 0 /\ s3 r = 0 /\ s4 r = 0).
Proof.
  intros a b H. split; [intros; apply smoother_range; exact H|]. split; [|split].
  - intros r L. unfold smoother. destruct (Rge_dec r a); [lra|]. destruct (Rle_dec r b); [reflexivity|lra].
  - intros r L. unfold smoother. destruct (Rge_dec r a); [reflexivity|lra].
  - split; [intros; apply smoother_mono; assumption|]. split; [intros; apply smoother_sym; exact H|apply smoother_C4; exact H].
Qed.
Print Assumptions C143_smoother.
Theorem C143_polynomials : forall a b, b < a ->
  (exists p1 p2, (forall r, derivable_pt_lim (fun r => polynomial5 r a b) r (p1 r)) /\ (forall r, derivable_pt_lim p1 r (p2 r)) /\
     polynomial5 b a b = 0 /\ p1 b = 0 /\ p2 b = 0 /\ polynomial5 a a b = 1 /\ p1 a = 0 /\ p2 a = 0) /\
  (exists p1 p2 p3, (forall r, derivable_pt_lim (fun r => polynomial7 r a b) r (p1 r)) /\ (forall r, derivable_pt_lim p1 r (p2 r)) /\ (forall r, derivable_pt_lim p2 r (p3 r)) /\
     polynomial7 b a b = 0 /\ p1 b = 0 /\ p2 b = 0 /\ p3 b = 0 /\ polynomial7 a a b = 1 /\ p1 a = 0 /\ p2 a = 0 /\ p3 a = 0).
Proof. intros a b H. split; [exact (poly5_ok a b H)|exact (poly7_ok a b H)]. Qed.
Print Assumptions C143_polynomials.
Example C143_ex : smoother (3/2) 2 1 = 1/2 /\ 0 < smoother (5/4) 2 1 < 1/2 /\ smoother 3 2 1 = 1 /\ smoother 0 2 1 = 0.
Proof.
  unfold smoother, poly_smoother. repeat match goal with |- context [Rge_dec ?a ?b] => destruct (Rge_dec a b); try lra | |- context [Rle_dec ?a ?b] => destruct (Rle_dec a b); try lra end.
Qed.

(** C144. The radial derivatives of a field from its Cartesian ones: along the ray from the centre c in the unit direction N the values dfdr and ddfddr are the
    first and second derivative, at the surface point x = r0 N, for every twice differentiable field. *)
Theorem C144_radial : forall (F : point -> R) dF ddF (c N : point) (r0 : R), 0 < r0 -> N 0%nat ^2 + N 1%nat ^2 + N 2%nat ^2 = 1 ->
  let line r := fun i => c i + r * N i in
  (forall p v, derivable_pt_lim (fun t => F (fun i => p i + t * v i)) 0 (v 0%nat * dF 0%nat p + v 1%nat * dF 1%nat p + v 2%nat * dF 2%nat p)) ->
  (forall i p v, derivable_pt_lim (fun t => dF i (fun k => p k + t * v k)) 0
     (v 0%nat * ddF (IJsymm3 i 0) p + v 1%nat * ddF (IJsymm3 i 1) p + v 2%nat * ddF (IJsymm3 i 2) p)) ->
  (forall p q, (forall i, p i = q i) -> F p = F q /\ forall k, dF k p = dF k q) ->
  (forall r, derivable_pt_lim (fun r => F (line r)) r (dfdr_of N (fun i => dF i (line r)))) /\
  derivable_pt_lim (fun r => dfdr_of N (fun i => dF i (line r))) r0
    (ddfddr_of N (fun i => r0 * N i) (fun i => dF i (line r0)) (fun k => ddF k (line r0)) r0).
Proof. intros F dF ddF c N r0 H0 HN line A B C. apply (radial2 F dF ddF c N r0 H0 HN A B); intros; apply C; assumption. Qed.
Print Assumptions C144_radial.
(** the six second derivatives are stored without collision, in either order of the indices *)
Theorem C144_pairs : forall i j, (i < 3)%nat -> (j < 3)%nat -> IJsymm3 i j = IJsymm3 j i /\
  forall k l, (i <= j)%nat -> (k <= l < 3)%nat -> IJsymm3 i j = IJsymm3 k l -> i = k /\ j = l.
Proof. intros i j Hi Hj. split; [exact (IJ_sym i j Hi Hj)|]. intros k l A B. apply IJ_inj; [split; assumption|exact B]. Qed.
Print Assumptions C144_pairs.
(** and the derivatives are looked up under their documented names: "d" or "dd" in front (behind a leading underscore), the indices at the end, after an underscore if the
    name carries no index yet ([documented]) *)
Theorem C144_names : forall f : list ascii, (hd_error f <> Some "_"%char \/ FillerNames.indexed (tl f) = true) ->
  (forall i, FillerNames.df_name f i = FillerNames.documented 1 f [i]) /\
  (forall i j, (i < 3)%nat -> (j < 3)%nat -> FillerNames.df_name f i = FillerNames.df_name f j -> i = j).
Proof.
  intros f H. split; [intros; apply FillerNames.df_ok; exact H|]. intros i j Hi Hj E. rewrite !FillerNames.df_ok in E by exact H.
  exact (FillerNames.documented_inj 1 f i j Hi Hj E).
Qed.
Print Assumptions C144_names.
Theorem C144_names2 : forall (f : list ascii) i j, (i <= j)%nat ->
  FillerNames.ddf_name f i j = FillerNames.documented 2 f [i; j] /\ FillerNames.ddf_name f j i = FillerNames.documented 2 f [i; j].
Proof. exact FillerNames.ddf_ok. Qed.
Print Assumptions C144_names2.
(** For a name that starts with an underscore and has no index the three names of the first derivatives are "_d.._D2", empty and empty. *)
Theorem C144_names_refuted : forall s, FillerNames.indexed s = false ->
  FillerNames.df_name ("_"%char :: s) 1 = [] /\ FillerNames.df_name ("_"%char :: s) 2 = [] /\ FillerNames.df_name ("_"%char :: s) 0 = FillerNames.documented 1 ("_"%char :: s) [2%nat].
Proof. exact FillerNames.df_bad. Qed.
Print Assumptions C144_names_refuted.
Example C144_ex : FillerNames.df_name (list_ascii_of_string "psi") 1 = list_ascii_of_string "dpsi_D1" /\
  FillerNames.df_name (list_ascii_of_string "_gamma_D2D2") 1 = list_ascii_of_string "_dgamma_D2D2D1" /\
  FillerNames.ddf_name (list_ascii_of_string "B0_U1") 2 0 = list_ascii_of_string "ddB0_U1D0D2" /\
  FillerNames.df_name (list_ascii_of_string "_lapse") 0 = list_ascii_of_string "_dlapse_D2" /\ FillerNames.df_name (list_ascii_of_string "_lapse") 1 = [] /\
  dfdr_of (fun i => match i with 0%nat => 3/5 | 1%nat => 4/5 | _ => 0 end) (fun i => INR i) = 4/5.
Proof. repeat split; try reflexivity. unfold dfdr_of. cbn. lra. Qed.

(** C145. Extrapolants outside a star: for every method the field joins its extrapolant, chosen by name; C2 for poly2, inverse_r2, inverse_r2_expmr, inverse_r2_expmAr and exp2. *)
Theorem C145_C2 : forall (r0 dd : R) (u u' : R -> R) m, 0 < r0 -> (forall r, 0 < r -> derivable_pt_lim u r (u' r)) -> derivable_pt_lim u' r0 dd ->
  In m ["poly2"; "inverse_r2"; "inverse_r2_expmr"; "inverse_r2_expmAr"]%string \/ (m = "exp2"%string /\ ROUND_OFF_ERR <= Rabs (u' r0) /\ ROUND_OFF_ERR <= Rabs dd) ->
  exists f G', (forall r, st_extrap m r0 (u r0) (u' r0) dd r = Ok (f r)) /\
    (forall r, 0 < r -> derivable_pt_lim (fun r => if Rle_dec r r0 then u r else f r) r (G' r)) /\ G' r0 = u' r0 /\ derivable_pt_lim G' r0 dd.
Proof.
  intros r0 dd u u' m H0 Hu Hd [H|(-> & N1 & N2)].
  - destruct H as [<-|[<-|[<-|[<-|[]]]]].
    + destruct (poly2_join r0 dd u u' H0 Hu Hd) as [G' G]. eexists. exists G'. split; [intros; reflexivity|exact G].
    + destruct (inverse_r2_join r0 dd u u' H0 Hu Hd) as [G' G]. eexists. exists G'. split; [intros; reflexivity|exact G].
    + destruct (inverse_r2_expmr_join r0 dd u u' H0 Hu Hd) as [G' G]. eexists. exists G'. split; [intros; reflexivity|exact G].
    + destruct (inverse_r2_expmAr_join r0 dd u u' H0 Hu Hd) as [G' G]. eexists. exists G'. split; [intros; reflexivity|exact G].
  - destruct (exp2_join r0 dd u u' H0 Hu Hd N1 N2) as (f & E & G' & G). exists f, G'. split; [exact E|exact G].
Qed.
Print Assumptions C145_C2.
(** C1 for the two methods inverse_r_*: continuously differentiable *)
Theorem C145_C1 : forall (r0 dd : R) (u u' : R -> R) m, 0 < r0 -> (forall r, 0 < r -> derivable_pt_lim u r (u' r)) -> continuity_pt u' r0 ->
  In m ["inverse_r_expmAr"; "inverse_r_expmr"]%string ->
  exists f G', (forall r, st_extrap m r0 (u r0) (u' r0) dd r = Ok (f r)) /\
    (forall r, 0 < r -> derivable_pt_lim (fun r => if Rle_dec r r0 then u r else f r) r (G' r)) /\ G' r0 = u' r0 /\ continuity_pt G' r0.
Proof.
  intros r0 dd u u' m H0 Hu Hd [<-|[<-|[]]].
  - destruct (inverse_r_expmAr_join r0 u u' H0 Hu Hd) as [G' G]. eexists. exists G'. split; [intros; reflexivity|exact G].
  - destruct (inverse_r_expmr_join r0 u u' H0 Hu Hd) as [G' G]. eexists. exists G'. split; [intros; reflexivity|exact G].
Qed.
Print Assumptions C145_C1.
(** C0 for expmr *)
Theorem C145_C0 : forall (r0 dd : R) (u u' : R -> R), 0 < r0 -> (forall r, 0 < r -> derivable_pt_lim u r (u' r)) ->
  exists f, (forall r, st_extrap "expmr" r0 (u r0) (u' r0) dd r = Ok (f r)) /\ continuity_pt (fun r => if Rle_dec r r0 then u r else f r) r0.
Proof. intros r0 dd u u' H0 Hu. eexists. split; [intros; reflexivity|exact (expmr_join r0 u u' H0 Hu)]. Qed.
Print Assumptions C145_C0.
(** exp2 stops the program where a derivative vanishes (to ROUND_OFF_ERR), and so does an unknown method *)
Theorem C145_aborts : (forall r0 f d dd r, Rabs d < ROUND_OFF_ERR \/ Rabs dd < ROUND_OFF_ERR -> st_extrap "exp2" r0 f d dd r = Abort) /\
  forall m r0 f d dd r, ~ In m ["inverse_r_expmAr"; "inverse_r_expmr"; "poly2"; "exp2"; "inverse_r2"; "inverse_r2_expmr"; "inverse_r2_expmAr"; "expmr"]%string -> st_extrap m r0 f d dd r = Abort.
Proof.
  split; [intros; apply exp2_aborts; assumption|]. intros m r0 f d dd r H. unfold st_extrap.
  repeat match goal with |- context [String.eqb m ?s] => destruct (String.eqb_spec m s) as [->|]; [exfalso; apply H; cbn; tauto|] end. reflexivity.
Qed.
Print Assumptions C145_aborts.
Example C145_ex : exists f G', (forall r, st_extrap "exp2" 1 (exp 1) (exp 1) (exp 1) r = Ok (f r)) /\
  derivable_pt_lim (fun r => if Rle_dec r 1 then exp r else f r) 1 (G' 1) /\ G' 1 = exp 1 /\ st_extrap "poly2" 1 0 2 2 3 = Ok 8.
Proof.
  assert (E : ROUND_OFF_ERR <= Rabs (exp 1)). { rewrite Rabs_right by (left; apply exp_pos). pose proof (exp_ineq1 1 ltac:(lra)). unfold ROUND_OFF_ERR. lra. }
  destruct (C145_C2 1 (exp 1) exp exp "exp2") as (f & G' & A & B & C & _);
    [lra|intros; apply derivable_pt_lim_exp|apply derivable_pt_lim_exp|right; repeat split; exact E|].
  exists f, G'. split; [exact A|]. split; [apply B; lra|]. split; [exact C|]. cbn. f_equal. unfold st_poly2. field.
Qed.

(** C146. The exponential fillers of a black hole are continuous at the surface ... *)
Theorem C146_continuous : forall (r0 : R) (u : R -> R), 0 < r0 -> continuity_pt u r0 ->
  continuity_pt (fun r => if Rle_dec r r0 then bh_expmr_C0 r0 (u r0) r else u r) r0.
Proof. exact C0_continuous. Qed.
Print Assumptions C146_continuous.
(** ... but the field grows towards the centre by a factor e, where the comment in the code has it decay, ... *)
Theorem C146_decay_refuted : forall r0 f r, 0 < r0 -> 0 < f -> 0 <= r < r0 ->
  f < bh_expmr_C0 r0 f r /\ bh_expmr_C0 r0 f r = f * exp ((r0 - r)/r0) /\ bh_expmr_C0 r0 f 0 = f * exp 1.
Proof.
  intros r0 f r H0 Hf Hr. rewrite !C0_value by lra. replace ((r0 - 0)/r0) with 1 by (field; lra). repeat split.
  assert (0 < (r0-r)/r0) by (apply Rdiv_lt_0_compat; lra). pose proof (exp_ineq1 ((r0-r)/r0) ltac:(lra)). nra.
Qed.
Print Assumptions C146_decay_refuted.
(** ... and the filler that is meant to be C1 has a kink for every field that does not vanish at the surface; without the absolute value it would be differentiable. *)
Theorem C146_C1_refuted : forall (r0 : R) (u u' : R -> R), 0 < r0 -> derivable_pt_lim u r0 (u' r0) ->
  (u r0 <> 0 -> forall d, ~ derivable_pt_lim (fun r => if Rle_dec r r0 then bh_r_expmr_C1 r0 (u r0) (u' r0) r else u r) r0 d) /\
  derivable_pt_lim (fun r => if Rle_dec r r0 then (2*u r0 - u' r0*r0 + (u' r0 - u r0/r0)*r) * exp ((r - r0)/r0) else u r) r0 (u' r0).
Proof. intros r0 u u' H Hu. split; [intros N; exact (C1_kink r0 u u' H Hu N)|exact (C1_documented r0 u u' H Hu)]. Qed.
Print Assumptions C146_C1_refuted.
Example C146_ex : (forall d, ~ derivable_pt_lim (fun r => if Rle_dec r 1 then bh_r_expmr_C1 1 (exp 1) (exp 1) r else exp r) 1 d) /\ bh_expmr_C0 1 2 0 = 2 * exp 1.
Proof.
  split; [apply (proj1 (C146_C1_refuted 1 exp exp ltac:(lra) (derivable_pt_lim_exp 1))); apply Rgt_not_eq, exp_pos|].
  apply (C146_decay_refuted 1 2 0); lra.
Qed.
