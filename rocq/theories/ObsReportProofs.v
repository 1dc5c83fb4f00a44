(** ObsReportProofs.v *)
From Coq Require Import Reals Lra.
From Verif Require Import Base TextModel RegionModel RegionProofs GenObsDisp ObsDispModel ObsDispSpec ObsDispProofs ObsDispTables ObsDispKomar ObsReportModel.
Open Scope string_scope.

Section P.
  Variable T : patch -> list str.
  Variables (k : kind) (g : list patch) (n1 : bool).
  Hypothesis K : scs k.
  Hypothesis Tg : Forall (tagged T) g.
  Definition all_rows : list row := (rows_P n1 ++ rows_J n1 ++ rows_M ++ rows_K n1)%list.
  Lemma by_table_row rows q m x : by_table T g rows q m = Ok x -> exists r, In r rows /\ is q (r_quantity r) = true /\ is m (r_method r) = true /\ expected T g r = Ok x.
  Proof.
    unfold by_table, row_for. destruct (find _ rows) as [r|] eqn:F; [|discriminate]. intros E. apply find_some in F. destruct F as [I H]. apply andb_true_iff in H. exists r. tauto.
  Qed.
  Lemma items_inv (r : outcome (list item * formula)) x : (do y <- r; Ok (Items y)) = Ok (Items x) -> r = Ok x.
  Proof. destruct r as [y| |]; cbn [obind]; intros H; inversion H. reflexivity. Qed.
  Lemma if_inv {A} (b : bool) (x y z : A) : (if b then x else y) = z -> x = z \/ y = z.
  Proof. destruct b; auto. Qed.
  Lemma obs_cases q m x : obs_calculate k g q m n1 = Ok (Items x) ->
    calc_ADM_P k g q m n1 = Ok x \/ calc_ADM_J k g q m n1 = Ok x \/ calc_ADM_mass k g q m n1 = Ok x \/ calc_Kommar_mass k g q m n1 = Ok x.
  Proof.
    intros H. unfold obs_calculate in H.
    apply if_inv in H. destruct H as [H|H]; [left; exact (items_inv _ _ H)|right].
    apply if_inv in H. destruct H as [H|H]; [left; exact (items_inv _ _ H)|right].
    apply if_inv in H. destruct H as [H|H]; [left; exact (items_inv _ _ H)|right].
    apply if_inv in H. destruct H as [H|H]; [exact (items_inv _ _ H)|].
    do 4 (apply if_inv in H; destruct H as [H|H]; [discriminate H|]). discriminate H.
  Qed.
  Lemma table_P_rows r : In r (table_P k n1) -> In r (rows_P n1).
  Proof. apply incl_filter. Qed.
  Lemma acc_P q m x : calc_ADM_P k g q m n1 = Ok x -> exists r, In r (table_P k n1) /\ is q (r_quantity r) = true /\ is m (r_method r) = true /\ expected T g r = Ok x.
  Proof. intros H. apply by_table_row. rewrite <- H. symmetry. apply (P_table T k g n1 K Tg). Qed.
  Lemma acc_J q m x : calc_ADM_J k g q m n1 = Ok x -> exists r, In r (rows_J n1) /\ is q (r_quantity r) = true /\ is m (r_method r) = true /\ expected T g r = Ok x.
  Proof. intros H. apply by_table_row. rewrite <- H. symmetry. apply (J_table T k g n1 K Tg). Qed.
  Lemma acc_M q m x : calc_ADM_mass k g q m n1 = Ok x -> exists r, In r rows_M /\ is q (r_quantity r) = true /\ is m (r_method r) = true /\ expected T g r = Ok x.
  Proof. intros H. apply by_table_row. rewrite <- H. symmetry. apply (M_table T k g n1 K Tg). Qed.
  Lemma acc_K q m x : calc_Kommar_mass k g q m n1 = Ok x -> exists r, In r (rows_K n1) /\ is q (r_quantity r) = true /\ is m (r_method r) = true /\ expected T g r = Ok x.
  Proof. intros H. apply by_table_row. rewrite <- H. symmetry. apply (K_table T k g n1 K Tg). Qed.
  Lemma in4 (A B C D : list row) r : In r A \/ In r B \/ In r C \/ In r D -> In r (A ++ B ++ C ++ D)%list.
  Proof. rewrite !in_app_iff. tauto. Qed.
  Lemma accepted q m its f : obs_calculate k g q m n1 = Ok (Items (its, f)) ->
    exists r, In r all_rows /\ is q (r_quantity r) = true /\ is m (r_method r) = true /\ expected T g r = Ok (its, f).
  Proof.
    intros H. apply obs_cases in H. destruct H as [E|[E|[E|E]]].
    - apply acc_P in E. destruct E as (r & I & E). exists r. split; [|exact E]. apply in4. left. apply table_P_rows, I.
    - apply acc_J in E. destruct E as (r & I & E). exists r. split; [|exact E]. apply in4. right. left. exact I.
    - apply acc_M in E. destruct E as (r & I & E). exists r. split; [|exact E]. apply in4. right. right. left. exact I.
    - apply acc_K in E. destruct E as (r & I & E). exists r. split; [|exact E]. apply in4. right. right. right. exact I.
  Qed.
End P.

Open Scope R_scope.
Definition is_surface (i : item) : bool := match it_face i with Some _ => true | None => false end.
Definition Rsum (l : list R) : R := fold_right Rplus 0 l.
(** the weight of the surface and of the volume integrals *)
Definition weights (F : formula) : R * R :=
  match F with
  | F_obs_ADM_P_Stokes_SV_Ossokine => (/ (8 * PI), - / (8 * PI))
  | F_obs_ADM_P_S_default | F_obs_ADM_J_S_default | F_obs_ADM_J_Stokes_SV_Ossokine
  | F_obs_ADM_P_Stokes_SV_Rashti | F_obs_ADM_P_Stokes_SV_constraint | F_obs_ADM_J_Stokes_SV_constraint => (/ (8 * PI), / (8 * PI))
  | F_obs_ADM_mass_SV_conformal => (1, 1)
  | F_obs_ADM_mass_SV_isotropic => (- / (2 * PI), - / (2 * PI))
  | F_obs_ADM_mass_S2 => (/ (16 * PI), 0)
  | F_obs_Komar_mass => (/ (4 * PI), 1)
  | NoFormula => (0, 0)
  end.
Lemma sum_items_ok f h l acc : (forall i, In i l -> f i = Ok (h i)) -> sum_items f acc l = Ok (acc + Rsum (map h l)).
Proof.
  revert acc. induction l as [|i l IH]; intros acc H; cbn [sum_items map Rsum fold_right].
  - f_equal. ring.
  - rewrite (H i) by (left; reflexivity). cbn [obind]. rewrite IH by (intros j J; apply H; right; exact J). f_equal. unfold Rsum. ring.
Qed.
Lemma Rsum_split (S V : item -> R) a b l : Rsum (map (fun i => if is_surface i then a * S i else b * V i) l)
  = a * Rsum (map S (filter is_surface l)) + b * Rsum (map V (filter (fun i => negb (is_surface i)) l)).
Proof.
  induction l as [|i l IH]; cbn [map filter Rsum fold_right]; [ring|]. fold (Rsum (map (fun i => if is_surface i then a * S i else b * V i) l)). rewrite IH.
  destruct (is_surface i); cbn [negb map fold_right]; unfold Rsum; ring.
Qed.
Definition needs_surface_only (F : formula) : bool :=
  match F with F_obs_ADM_P_S_default | F_obs_ADM_J_S_default | F_obs_ADM_J_Stokes_SV_Ossokine | F_obs_ADM_mass_S2 => true | _ => false end.
Lemma report_ok F S V l : F <> NoFormula -> l <> [] -> (needs_surface_only F = true -> forall i, In i l -> is_surface i = true) ->
  report F S V l = Ok (fst (weights F) * Rsum (map S (filter is_surface l)) + snd (weights F) * Rsum (map V (filter (fun i => negb (is_surface i)) l))).
Proof.
  intros HF Hl Hs. pose proof PI_RGT_0 as Hpi.
  assert (X : forall f a b d, (forall i, In i l -> f i = Ok (if is_surface i then a * S i else b * V i)) -> d <> 0 ->
    oscale (sum_items f 0 l) d = Ok (a / d * Rsum (map S (filter is_surface l)) + b / d * Rsum (map V (filter (fun i => negb (is_surface i)) l)))).
  { intros f a b d Hf Hd. unfold oscale. rewrite (sum_items_ok f _ l 0 Hf). cbn [obind]. f_equal. rewrite (Rsum_split S V a b l). field. exact Hd. }
  assert (X1 : forall f a b, (forall i, In i l -> f i = Ok (if is_surface i then a * S i else b * V i)) ->
    sum_items f 0 l = Ok (a * Rsum (map S (filter is_surface l)) + b * Rsum (map V (filter (fun i => negb (is_surface i)) l)))).
  { intros f a b Hf. rewrite (sum_items_ok f _ l 0 Hf). f_equal. rewrite (Rsum_split S V a b l). ring. }
  assert (D : forall (sV : ascii) (V' : option (item -> R)) b, sign_ok sV = true -> Sign sV = b -> (V' = Some V \/ forall i, In i l -> is_surface i = true) ->
     obs_integral_SV (Some S) V' "+"%char sV l = sum_items (one_item (Some S) V' "+"%char sV) 0 l /\
     (forall i, In i l -> one_item (Some S) V' "+"%char sV i = Ok (if is_surface i then 1 * S i else b * V i))).
  { intros sV V' b Hs1 Hb HV. split.
    - unfold obs_integral_SV. rewrite Hs1. cbn [sign_ok]. change (sign_ok "+"%char) with true. cbn [andb]. destruct l; [congruence|reflexivity].
    - intros i I. unfold one_item, is_surface. change (Sign "+"%char) with 1. rewrite Hb. destruct (it_face i) as [f|] eqn:E; [f_equal; ring|].
      destruct HV as [->|HV]; [f_equal; ring|]. specialize (HV i I). unfold is_surface in HV. rewrite E in HV. discriminate. }
  assert (S1 : Sign "+"%char = 1) by reflexivity. assert (S2 : Sign "-"%char = -1) by reflexivity.
  destruct F; try congruence; cbn [report weights fst snd needs_surface_only] in *.
  - destruct (D "+"%char None 1 eq_refl S1 (or_intror (Hs eq_refl))) as [-> E]. rewrite (X _ 1 1 (8 * PI) E) by lra. f_equal. field. lra.
  - destruct (D "-"%char (Some V) (-1) eq_refl S2 (or_introl eq_refl)) as [-> E]. rewrite (X _ 1 (-1) (8 * PI) E) by lra. f_equal. field. lra.
  - destruct (D "+"%char (Some V) 1 eq_refl S1 (or_introl eq_refl)) as [-> E]. rewrite (X _ 1 1 (8 * PI) E) by lra. f_equal. field. lra.
  - destruct (D "+"%char (Some V) 1 eq_refl S1 (or_introl eq_refl)) as [-> E]. rewrite (X _ 1 1 (8 * PI) E) by lra. f_equal. field. lra.
  - destruct (D "+"%char None 1 eq_refl S1 (or_intror (Hs eq_refl))) as [-> E]. rewrite (X _ 1 1 (8 * PI) E) by lra. f_equal. field. lra.
  - destruct (D "+"%char None 1 eq_refl S1 (or_intror (Hs eq_refl))) as [-> E]. rewrite (X _ 1 1 (8 * PI) E) by lra. f_equal. field. lra.
  - destruct (D "+"%char (Some V) 1 eq_refl S1 (or_introl eq_refl)) as [-> E]. rewrite (X _ 1 1 (8 * PI) E) by lra. f_equal. field. lra.
  - rewrite (X _ 1 1 (-2 * PI)); [f_equal; field; lra| |lra]. intros i _. unfold is_surface. destruct (it_face i); f_equal; ring.
  - destruct (D "+"%char (Some V) 1 eq_refl S1 (or_introl eq_refl)) as [-> E]. rewrite (X1 _ 1 1 E). f_equal.
  - rewrite (X _ 1 0 (16 * PI)); [f_equal; field; lra| |lra]. intros i I. specialize (Hs eq_refl i I). unfold is_surface in *. destruct (it_face i); [f_equal; ring|discriminate].
  - rewrite (X1 _ (/ (4 * PI)) 1); [f_equal|]. intros i _. unfold is_surface. destruct (it_face i); f_equal; field; lra.
Qed.
Definition row_ok (r : row) : bool :=
  (match r_formula r with NoFormula => false | _ => true end) && (match r_volume r, r_surface r with [], [] => false | _, _ => true end)
  && (if needs_surface_only (r_formula r) then match r_volume r with [] => true | _ => false end else true).
Lemma rows_ok n1 : forallb row_ok (all_rows n1) = true.
Proof. destruct n1; vm_compute; reflexivity. Qed.
Lemma face_some T l p : has T (map fst l) p = true -> exists fc, face_of T l p = Some fc.
Proof.
  induction l as [|[t fc] l IH]; cbn [map fst]; [discriminate|]. intros H. cbn [face_of]. destruct (has T [t] p) eqn:E; [eauto|].
  apply IH. unfold has in *. cbn [existsb] in *. rewrite orb_false_r in E. rewrite E in H. exact H.
Qed.
Lemma expected_items T g r its f : expected T g r = Ok (its, f) -> row_ok r = true ->
  f <> NoFormula /\ its <> [] /\ (needs_surface_only f = true -> forall i, In i its -> is_surface i = true) /\
  (forall i, In i its -> if is_surface i then it_normal i = Some (it_metric i) else it_normal i = None).
Proof.
  unfold expected. destruct (empty_region T g (r_volume r)) eqn:E1; [discriminate|]. destruct (empty_region T g (map fst (r_surface r))) eqn:E2; [discriminate|].
  cbn [orb]. intros H R. injection H as <- <-. unfold row_ok in R. apply andb_true_iff in R. destruct R as [R R3]. apply andb_true_iff in R. destruct R as [R1 R2].
  assert (SF : forall p, has T (map fst (r_surface r)) p = true -> exists fc, face_of T (r_surface r) p = Some fc).
  { intros p. apply face_some. }
  assert (C : forall i, In i (items_of_row T g r) -> (exists p, In p g /\ has T (r_volume r) p = true /\ i = mkitem p None (r_metric r) None) \/ (exists p fc, i = mkitem p (Some fc) (r_metric r) (Some (r_metric r)))).
  { intros i I. unfold items_of_row in I. apply in_app_or in I. destruct I as [I|I]; apply in_map_iff in I; destruct I as (p & <- & I); apply filter_In in I.
    - left. exists p. tauto.
    - right. destruct (SF p (proj2 I)) as (fc & ->). exists p, fc. reflexivity. }
  split; [intros E; rewrite E in R1; discriminate|]. split; [|split].
  - intros E. unfold items_of_row in E. apply app_eq_nil in E. destruct E as [Ea Eb].
    assert (NE : forall l, empty_region T g l = false -> l <> [] -> filter (has T l) g <> []).
    { intros l H Hl F. destruct l as [|t l]; [congruence|]. cbn [empty_region] in H. apply negb_false_iff, existsb_exists in H. destruct H as (p & Ip & Hp).
      assert (J : In p (filter (has T (t :: l)) g)) by (apply filter_In; auto). rewrite F in J. exact J. }
    destruct (r_volume r) as [|v vs] eqn:EV.
    + destruct (r_surface r) as [|s ss] eqn:ES; [discriminate|]. apply map_eq_nil in Eb. revert Eb. apply NE; [exact E2|discriminate].
    + apply map_eq_nil in Ea. revert Ea. apply NE; [exact E1|discriminate].
  - intros N i I. rewrite N in R3. destruct (C i I) as [(p & _ & Hp & ->)|(p & fc & ->)]; [|reflexivity]. destruct (r_volume r); [discriminate Hp|discriminate R3].
  - intros i I. destruct (C i I) as [(p & _ & _ & ->)|(p & fc & ->)]; reflexivity.
Qed.
Lemma reported T k g n1 q m its f S V : scs k -> Forall (tagged T) g -> obs_calculate k g q m n1 = Ok (Items (its, f)) ->
  report f S V its = Ok (fst (weights f) * Rsum (map S (filter is_surface its)) + snd (weights f) * Rsum (map V (filter (fun i => negb (is_surface i)) its))).
Proof.
  intros K Tg H. destruct (accepted T k g n1 K Tg q m its f H) as (r & I & _ & _ & E). pose proof (rows_ok n1) as R. rewrite forallb_forall in R.
  destruct (expected_items T g r its f E (R r I)) as (A & B & C & _). apply report_ok; assumption.
Qed.
Lemma normals T k g n1 q m its f : scs k -> Forall (tagged T) g -> obs_calculate k g q m n1 = Ok (Items (its, f)) ->
  forall i, In i its -> match it_face i with Some _ => it_normal i = Some (it_metric i) | None => it_normal i = None end.
Proof.
  intros K Tg H i Ii. destruct (accepted T k g n1 K Tg q m its f H) as (r & I & _ & _ & E). pose proof (rows_ok n1) as R. rewrite forallb_forall in R.
  destruct (expected_items T g r its f E (R r I)) as (_ & _ & _ & D). specialize (D i Ii). unfold is_surface in D. destruct (it_face i); exact D.
Qed.

(** spin *)
Definition vadd (a b : R * R * R) : R * R * R := let '(a0, a1, a2) := a in let '(b0, b1, b2) := b in (a0 + b0, a1 + b1, a2 + b2).
Definition vsub (a b : R * R * R) : R * R * R := let '(a0, a1, a2) := a in let '(b0, b1, b2) := b in (a0 - b0, a1 - b1, a2 - b2).
Definition cross3 (a b : R * R * R) : R * R * R := let '(a0, a1, a2) := a in let '(b0, b1, b2) := b in (a1 * b2 - a2 * b1, a2 * b0 - a0 * b2, a0 * b1 - a1 * b0).
Lemma spin_value J Rc P : spin_JRP J Rc P = vsub J (cross3 Rc P).
Proof. destruct J as [[? ?] ?], Rc as [[? ?] ?], P as [[? ?] ?]. unfold spin_JRP, vsub, cross3. f_equal; [f_equal|]; ring. Qed.
Lemma spin_origin J Rc P d : spin_JRP (vsub J (cross3 d P)) (vsub Rc d) P = spin_JRP J Rc P.
Proof. destruct J as [[? ?] ?], Rc as [[? ?] ?], P as [[? ?] ?], d as [[? ?] ?]. unfold spin_JRP, vsub, cross3. f_equal; [f_equal|]; ring. Qed.
Lemma surf_lin a f c p acc : fold_left (fun x n => x + nw n * (f n - c)) p (acc - a * c) = fold_left (fun x n => x + nw n * f n) p acc - fold_left (fun x n => x + nw n * 1) p a * c.
Proof.
  revert acc a. induction p as [|n p IH]; intros acc a; cbn [fold_left]; [ring|]. rewrite <- IH. f_equal. ring.
Qed.
Lemma all_lin f c ps acc a : fold_left (fun x p => x + surf_int (fun n => f n - c) p) ps (acc - a * c) = fold_left (fun x p => x + surf_int f p) ps acc - fold_left (fun x p => x + surf_int (fun _ => 1) p) ps a * c.
Proof.
  revert acc a. induction ps as [|p ps IH]; intros acc a; cbn [fold_left]; [ring|]. rewrite <- IH. f_equal.
  unfold surf_int at 1. replace 0 with (0 - 0 * c) at 1 by ring. rewrite surf_lin. unfold surf_int. ring.
Qed.
Lemma all_int_sub f c ps : all_int (fun n => f n - c) ps = all_int f ps - A_AH ps * c.
Proof. unfold all_int, A_AH, all_int. replace 0 with (0 - 0 * c) at 1 by ring. apply all_lin. Qed.
(** with the area of the same surface, the centre is the area average of the position minus the centre of mass *)
Lemma Rc_value CM ps : A_AH ps <> 0 -> Rc_BH CM (A_AH ps) ps = vsub (all_int nx ps / A_AH ps, all_int ny ps / A_AH ps, all_int nz ps / A_AH ps) CM.
Proof.
  intros H. destruct CM as [[x y] z]. unfold Rc_BH, vsub. rewrite !all_int_sub. f_equal; [f_equal|]; field; exact H.
Qed.
Lemma irreducible_value ps : 0 <= A_AH ps -> 0 <= irreducible_mass ps /\ 16 * PI * (irreducible_mass ps) ^ 2 = A_AH ps.
Proof.
  intros H. pose proof PI_RGT_0. unfold irreducible_mass. assert (X : 0 <= A_AH ps / (16 * PI)) by (apply Rmult_le_pos; [exact H|apply Rlt_le, Rinv_0_lt_compat; lra]).
  split; [apply sqrt_pos|]. rewrite pow2_sqrt by exact X. field. lra.
Qed.
