(** WordsProofs.v - proofs about WordsModel.v *)
From Verif Require Import Base TextModel TextSpec TextProofs TextToolsModel TextToolsProofs WordsModel.
From Verif Require RealBase ControlModel ControlProofs FillerModel.
From Coq Require Import Reals Lra.
Open Scope list_scope.
Local Notation low := (map tolower).
Lemma is_word_iff a w : is_word a w = true <-> low a = low (S_ w).
Proof.
  unfold is_word. rewrite strcmp_i_spec. split.
  - intros (x & y & E & E' & H). congruence.
  - intros H. exists a, (S_ w). auto.
Qed.
Lemma is_word_false a w : is_word a w = false <-> low a <> low (S_ w).
Proof. rewrite <- not_true_iff_false, is_word_iff. tauto. Qed.

(** ** momenta *)
(** what a word of "adjust( , , )" does to (x_CM, y_CM) *)
Inductive effect (v : sysval) : str -> (R * R -> R * R) -> Prop :=
| E_none w : low w = S_ "none" -> effect v w (fun c => c)
| E_x w : low w = S_ "x_cm" -> effect v w (fun c => (ControlModel.tune_xCM (py v) (wgt v) (tol v) (thr v) (omg v) (mass v) (fst c), snd c))
| E_y w : low w = S_ "y_cm" -> effect v w (fun c => (fst c, ControlModel.tune_yCM (px v) (wgt v) (tol v) (thr v) (omg v) (mass v) (snd c))).
Definition known (w : str) : Prop := low w = S_ "none" \/ low w = S_ "x_cm" \/ low w = S_ "y_cm".
Lemma func_effect v w g : effect v w g -> exists f, P_ADM_func (Some w) = Ok f /\ forall c, P_ADM_run v f c = g c.
Proof.
  intros E. unfold P_ADM_func. inversion E as [u H|u H|u H]; subst.
  - replace (is_word w "none") with true by (symmetry; apply is_word_iff; exact H). eexists. split; [reflexivity|]. reflexivity.
  - replace (is_word w "none") with false by (symmetry; apply is_word_false; rewrite H; discriminate).
    replace (is_word w "x_CM") with true by (symmetry; apply is_word_iff; exact H). eexists. split; [reflexivity|]. reflexivity.
  - replace (is_word w "none") with false by (symmetry; apply is_word_false; rewrite H; discriminate).
    replace (is_word w "x_CM") with false by (symmetry; apply is_word_false; rewrite H; discriminate).
    replace (is_word w "y_CM") with true by (symmetry; apply is_word_iff; exact H). eexists. split; [reflexivity|]. reflexivity.
Qed.
Lemma func_unknown w : ~ known w -> P_ADM_func (Some w) = Abort.
Proof.
  intros N. unfold P_ADM_func, known in *.
  replace (is_word w "none") with false by (symmetry; apply is_word_false; intros H; apply N; left; exact H).
  replace (is_word w "x_CM") with false by (symmetry; apply is_word_false; intros H; apply N; right; left; exact H).
  replace (is_word w "y_CM") with false by (symmetry; apply is_word_false; intros H; apply N; right; right; exact H). reflexivity.
Qed.
Lemma func_known w : known w -> exists f, P_ADM_func (Some w) = Ok f.
Proof.
  intros [H|[H|H]]; (destruct (func_effect (mksys 0 0 0 0 0 0 0) w _ ltac:(econstructor; exact H)) as (f & E & _); exists f; exact E).
Qed.
(** a value adjust(x,y,z), possibly with more text behind *)
Definition three_words (a x y z r : str) : str := a ++ "("%char :: x ++ ","%char :: y ++ ","%char :: z ++ ")"%char :: r.
Definition plain (w : str) : Prop := w <> [] /\ ~ In ","%char w /\ ~ In "("%char w /\ ~ In ")"%char w /\ ~ In NUL w.
Lemma momenta_ok a x y z r v fx fy fz c : low a = S_ "adjust" -> plain x -> plain y -> plain z -> ~ In NUL r ->
  effect v x fx -> effect v y fy -> effect v z fz -> tune_ADM_momenta (three_words a x y z r) v c = Ok (fz (fy (fx c))).
Proof.
  intros Ha Px Py Pz Hr Ex Ey Ez. unfold tune_ADM_momenta, three_words.
  rewrite (adjust_three a x y z r Ha) by (auto; repeat constructor; try apply Px; try apply Py; try apply Pz). cbn [obind].
  destruct (func_effect _ _ _ Ex) as (f0 & -> & R0). destruct (func_effect _ _ _ Ey) as (f1 & -> & R1). destruct (func_effect _ _ _ Ez) as (f2 & -> & R2).
  cbn [obind]. rewrite R0, R1, R2. reflexivity.
Qed.
Lemma momenta_abort a x y z r v c : low a = S_ "adjust" -> plain x -> plain y -> plain z -> ~ In NUL r ->
  ~ (known x /\ known y /\ known z) -> tune_ADM_momenta (three_words a x y z r) v c = Abort.
Proof.
  intros Ha Px Py Pz Hr N. unfold tune_ADM_momenta, three_words.
  rewrite (adjust_three a x y z r Ha) by (auto; repeat constructor; try apply Px; try apply Py; try apply Pz). cbn [obind].
  assert (D : forall w, known w \/ ~ known w).
  { intros w. unfold known. destruct (list_eq_dec ascii_dec (low w) (S_ "none")); [auto|]. destruct (list_eq_dec ascii_dec (low w) (S_ "x_cm")); [auto|].
    destruct (list_eq_dec ascii_dec (low w) (S_ "y_cm")); [auto|]. right. tauto. }
  destruct (D x) as [Kx|Kx]; [|rewrite (func_unknown _ Kx); reflexivity]. destruct (func_known _ Kx) as (f0 & ->). cbn [obind].
  destruct (D y) as [Ky|Ky]; [|rewrite (func_unknown _ Ky); reflexivity]. destruct (func_known _ Ky) as (f1 & ->). cbn [obind].
  destruct (D z) as [Kz|Kz]; [tauto|rewrite (func_unknown _ Kz); reflexivity].
Qed.
Lemma momenta_none par v c : low par = S_ "none" -> tune_ADM_momenta par v c = Ok c.
Proof. intros H. unfold tune_ADM_momenta. rewrite (adjust_none _ H). reflexivity. Qed.
Lemma effects_commute v x y fx fy c : effect v x fx -> effect v y fy -> fx (fy c) = fy (fx c).
Proof. intros Ex Ey. inversion Ex; inversion Ey; subst; cbn [fst snd]; reflexivity. Qed.
Section Twice.
Open Scope R_scope.
(** naming x_CM twice applies the correction twice *)
Lemma twice_x p W dP thr Om M x0 : Om <> 0 -> M <> 0 -> dP + RealBase.ROUND_OFF_ERR < Rabs p < thr - RealBase.ROUND_OFF_ERR ->
  let x2 := ControlModel.tune_xCM p W dP thr Om M (ControlModel.tune_xCM p W dP thr Om M x0) in p - Om*M*(x2 - x0) = (1 - 2*W)*p.
Proof.
  intros HO HM H. cbv zeta. pose proof (ControlProofs.xCM_ok p W dP thr Om M x0 HO HM H) as A.
  pose proof (ControlProofs.xCM_ok p W dP thr Om M (ControlModel.tune_xCM p W dP thr Om M x0) HO HM H) as B. 
  set (x1 := ControlModel.tune_xCM p W dP thr Om M x0) in *. set (x2 := ControlModel.tune_xCM p W dP thr Om M x1) in *.
  replace (Om*M*(x2 - x0)) with (Om*M*(x2 - x1) + Om*M*(x1 - x0)) by ring. lra.
Qed.
End Twice.

(** ** force balance *)
(** the ten words: direction, quantity, and the parameter changed *)
Definition balance_table : list (string * (fdir * string)) :=
  [("d/dx:x_CM", (Dir 0, "x_CM")); ("d/dy:x_CM", (Dir 1, "x_CM")); ("d/dz:x_CM", (Dir 2, "x_CM"));
   ("d/dx:y_CM", (Dir 0, "y_CM")); ("d/dy:y_CM", (Dir 1, "y_CM")); ("d/dz:y_CM", (Dir 2, "y_CM"));
   ("d/dx:Omega", (Dir 0, "angular_velocity")); ("d/dy:Omega", (Dir 1, "angular_velocity")); ("d/dz:Omega", (Dir 2, "angular_velocity"));
   ("d/dCM:Omega", (DirCM, "angular_velocity"))]%string.
Lemma balance_in a w d p : In (w, (d, p)) balance_table -> low a = low (S_ w) -> force_balance_func (Some a) = Ok (Some (d, S_ p)).
Proof.
  intros I H. assert (E : forall u, is_word a u = is_word (S_ w) u).
  { intros u. unfold is_word, strcmp_i. rewrite H. reflexivity. }
  unfold force_balance_func. rewrite !E. clear E H. revert w d p I.
  assert (A : Forall (fun q => force_balance_func (Some (S_ (fst q))) = Ok (Some (fst (snd q), S_ (snd (snd q))))) balance_table).
  { repeat constructor. }
  rewrite Forall_forall in A. intros w d p I. apply A in I. exact I.
Qed.
Lemma balance_none a : low a = S_ "none" -> force_balance_func (Some a) = Ok None.
Proof. intros H. unfold force_balance_func. replace (is_word a "none") with true by (symmetry; apply is_word_iff; exact H). reflexivity. Qed.
Lemma balance_abort a : low a <> S_ "none" -> (forall w d p, In (w, (d, p)) balance_table -> low a <> low (S_ w)) -> force_balance_func (Some a) = Abort.
Proof.
  intros N T. assert (E : forall w d p, In (w, (d, p)) balance_table -> is_word a w = false).
  { intros w d p I. apply is_word_false. exact (T w d p I). }
  unfold force_balance_func. replace (is_word a "none") with false by (symmetry; apply is_word_false; exact N).
  rewrite !(E _ _ _ ltac:(cbn; eauto 12)) by (cbn; eauto 12).
  repeat match goal with |- context [is_word a ?w] => replace (is_word a w) with false by (symmetry; eapply (E w); cbn; tauto) end.
  reflexivity.
Qed.
(** ** extrapolation *)
Definition extrap_words : list string :=
  ["inverse_r_expmr"; "inverse_r_expmAr"; "inverse_r2_expmAr"; "enthalpy_expmr_phi_inverse_r2"; "exp2"; "poly2"; "inverse_r2"; "inverse_r2_expmr"]%string.
Lemma calls_same a w : low a = low (S_ w) -> extrapolate_calls a = extrapolate_calls (S_ w).
Proof.
  intros H. assert (E : forall u, is_word a u = is_word (S_ w) u) by (intros u; unfold is_word, strcmp_i; rewrite H; reflexivity).
  unfold extrapolate_calls. rewrite !E. reflexivity.
Qed.
Lemma calls_in a w : In w extrap_words -> low a = low (S_ w) -> exists m1 m2,
  (extrapolate_calls a = Ok [(S_ "phi", S_ m1); (S_ "enthalpy", S_ m2)] \/ extrapolate_calls a = Ok [(S_ "enthalpy", S_ m2); (S_ "phi", S_ m1)]) /\
  (w = "enthalpy_expmr_phi_inverse_r2"%string -> m1 = "inverse_r2"%string /\ m2 = "expmr"%string) /\ (w <> "enthalpy_expmr_phi_inverse_r2"%string -> m1 = w /\ m2 = w).
Proof.
  intros I H. rewrite (calls_same a w H). clear a H. revert w I.
  assert (A : Forall (fun w => exists m1 m2, (extrapolate_calls (S_ w) = Ok [(S_ "phi", S_ m1); (S_ "enthalpy", S_ m2)] \/ extrapolate_calls (S_ w) = Ok [(S_ "enthalpy", S_ m2); (S_ "phi", S_ m1)]) /\
  (w = "enthalpy_expmr_phi_inverse_r2"%string -> m1 = "inverse_r2"%string /\ m2 = "expmr"%string) /\ (w <> "enthalpy_expmr_phi_inverse_r2"%string -> m1 = w /\ m2 = w)) extrap_words).
  { unfold extrap_words. repeat (apply Forall_cons); [..|apply Forall_nil].
    4: { exists "inverse_r2"%string, "expmr"%string. split; [right; reflexivity|]. split; [auto|congruence]. }
    all: match goal with |- context [extrapolate_calls (S_ ?w)] => exists w, w end; split; [left; reflexivity|split; [discriminate|auto]]. }
  rewrite Forall_forall in A. exact A.
Qed.
Lemma calls_abort a : (forall w, In w extrap_words -> low a <> low (S_ w)) -> extrapolate_calls a = Abort.
Proof.
  intros T. unfold extrapolate_calls.
  repeat match goal with |- context [is_word a ?w] => replace (is_word a w) with false by (symmetry; apply is_word_false; apply T; cbn; tauto) end.
  reflexivity.
Qed.
(** every method called is one the extrapolation knows *)
Lemma calls_known a l : extrapolate_calls a = Ok l -> forall f m, In (f, m) l -> exists w, m = S_ w /\
  In w ["inverse_r_expmAr"; "inverse_r_expmr"; "poly2"; "exp2"; "inverse_r2"; "inverse_r2_expmr"; "inverse_r2_expmAr"; "expmr"]%string.
Proof.
  unfold extrapolate_calls. intros H f m I.
  repeat match type of H with (if ?b then _ else _) = _ => destruct b end; try discriminate; injection H as <-; cbn in I;
  destruct I as [I|[I|[]]]; injection I as <- <-; eexists; (split; [reflexivity|cbn; tauto]).
Qed.
