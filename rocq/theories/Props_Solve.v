(** Props_Solve.v - C156-C159: which equations are solved, by which functions, where, and the relaxed outer loop. *)
From Verif Require Import Base TextModel TextSpec ParamSpec ParamText GenEqTable EqModel EqProofs.
From Verif Require FieldModel RealBase EqRelax EqRelaxProofs.
From Coq Require Import Lia.
Open Scope list_scope.
Local Notation low := (map tolower).

(** C156. The data bases of equations.  For every list of registrations (data base, function, name): they all succeed exactly when every name is shorter than 400 characters and
    no name occurs twice in one data base (case ignored) ... *)
Theorem C156_registration : forall l : list (nat * string * string),
  (exists dbs, add_eqs l (fun _ => []) = Ok dbs) <->
  (forall k f n, In (k, f, n) l -> List.length (S_ n) < 400) /\ NoDup (map (fun c => (fst (fst c), low (S_ (snd c)))) l).
Proof.
  intros l. rewrite (add_eqs_iff l (fun _ => [])) by (intros k; constructor). split.
  - intros [H N]. split; [|exact N]. intros k f n I. apply (H k f n I).
  - intros [H N]. split; [|exact N]. intros k f n I. split; [exact (H k f n I)|intros []].
Qed.
Print Assumptions C156_registration.
(** ... and then a look-up answers the function registered under prefix ++ name, case ignored, in whatever order the registrations came; it stops the program when there is none. *)
Theorem C156_lookup : forall l dbs k name prefix, add_eqs l (fun _ => []) = Ok dbs -> List.length (prefix ++ name) < 400 ->
  (forall fn, get_field_eq name (dbs k) prefix = Ok fn <-> exists f n, In (k, f, n) l /\ low (S_ n) = low (prefix ++ name) /\ fn = S_ f) /\
  ((forall f n, In (k, f, n) l -> low (S_ n) <> low (prefix ++ name)) -> get_field_eq name (dbs k) prefix = Abort).
Proof. intros l dbs k name prefix A L. split; [intros fn; exact (lookup_spec l dbs k name prefix fn A L)|exact (lookup_abort l dbs k name prefix A L)]. Qed.
Print Assumptions C156_lookup.
(** The registrations of the program succeed; an equation with a field equation has a boundary condition and both Jacobians, and vice versa. *)
Theorem C156_program : exists dbs, set_equation_dbs = Ok dbs /\
  forall n, List.length n < 380 -> forall j k, j < 4 -> k < 4 ->
  (exists fn, get_field_eq n (dbs j) (prefix_of j) = Ok fn) -> exists fn, get_field_eq n (dbs k) (prefix_of k) = Ok fn.
Proof. destruct program_ok as (dbs & E). exists dbs. split; [exact E|]. intros n L. exact (all_or_none dbs n E L). Qed.
Print Assumptions C156_program.
Example C156_ex : prefix_of 0 = S_ "eq_" /\ prefix_of 1 = S_ "bc_" /\ prefix_of 2 = S_ "jacobian_eq_" /\ prefix_of 3 = S_ "jacobian_bc_" /\
  get_field_eq (S_ "xcts_CURVE_type3_DDM_phi1") (program_dbs 1) (S_ "bc_") = Ok (S_ "eq_XCTS_curve_T3_ddm_bc_phi") /\
  get_field_eq (S_ "XCTS_curve_Type5_ddm_phi1") (program_dbs 1) (S_ "bc_") = Abort /\
  add_eqs [(0, "f", "eq_A"); (0, "g", "EQ_a")] (fun _ => []) = Abort /\ (exists d, add_eqs [(0, "f", "eq_A"); (1, "g", "EQ_a")] (fun _ => []) = Ok d).
Proof.
  repeat split; try reflexivity.
  
  eexists. reflexivity.
Qed.

(** C157. The documented choices (comments of set_equation_params), in any case of the letters.  [four dbs n] are the functions found under n: field equation, boundary condition and their Jacobians.
    phi equations: Type 1 and 4 use the field equation of Type 1, Type 2 and 3 that of Type 2; Type 3 and 4 replace the boundary condition and its Jacobian. *)
Theorem C157_phi : forall t f n, In t ["1"; "2"; "3"; "4"]%string -> In f ["phi"; "phi1"; "phi2"]%string -> low n = low (S_ ("XCTS_curve_Type" ++ t ++ "_DDM_" ++ f)) ->
  four program_dbs n =
    [Ok (S_ (if orb (t =? "1") (t =? "4") then "eq_XCTS_curve_T1_ddm_eq_phi" else "eq_XCTS_curve_T2_ddm_eq_phi")%string);
     Ok (S_ (if orb (t =? "1") (t =? "2") then "eq_XCTS_curve_T1_ddm_bc_phi" else "eq_XCTS_curve_T3_ddm_bc_phi")%string);
     Ok (S_ "eq_XCTS_curve_T1_ddm_jacobian_eq_phi");
     Ok (S_ (if orb (t =? "1") (t =? "2") then "eq_XCTS_curve_T1_ddm_jacobian_bc_phi" else "eq_XCTS_curve_T3_ddm_jacobian_bc_phi")%string)].
Proof.
  intros t f n Ht Hf H. rewrite (four_low program_dbs n _ H). clear n H.
  repeat (destruct Ht as [<-|Ht]; [repeat (destruct Hf as [<-|Hf]; [vm_compute; reflexivity|]); destruct Hf|]). destruct Ht.
Qed.
Print Assumptions C157_phi.
(** metric equations with an excised hole *)
Theorem C157_metric : forall f n, In f ["psi"; "alphaPsi"; "B0_U0"; "B0_U1"; "B0_U2"]%string -> low n = low (S_ ("XCTS_curve_excision_Type1_DDM_" ++ f)) ->
  four program_dbs n = map (fun w => Ok (S_ ("eq_XCTS_curve_exc_T1_ddm_" ++ w ++ f))) ["eq_"; "bc_"; "jacobian_eq_"; "jacobian_bc_"]%string.
Proof. intros f n Hf H. rewrite (four_low program_dbs n _ H). clear n H. repeat (destruct Hf as [<-|Hf]; [vm_compute; reflexivity|]). destruct Hf. Qed.
Print Assumptions C157_metric.
(** Type 2 of alphaPsi differs in the boundary condition and its Jacobian only, the flat equations of the shift in the Jacobian of the field equation only *)
Theorem C157_variants :
  (forall n, low n = low (S_ "XCTS_curve_excision_Type2_DDM_alphaPsi") -> four program_dbs n =
     map (fun w => Ok (S_ w)) ["eq_XCTS_curve_exc_T1_ddm_eq_alphaPsi"; "eq_XCTS_curve_exc_T2_ddm_bc_alphaPsi"; "eq_XCTS_curve_exc_T1_ddm_jacobian_eq_alphaPsi"; "eq_XCTS_curve_exc_T2_ddm_jacobian_bc_alphaPsi"]%string) /\
  (forall f n, In f ["B0_U0"; "B0_U1"; "B0_U2"]%string -> low n = low (S_ ("XCTS_flat_excision_Type1_DDM_" ++ f)) -> four program_dbs n =
     map (fun w => Ok (S_ (w ++ f))) ["eq_XCTS_curve_exc_T1_ddm_eq_"; "eq_XCTS_curve_exc_T1_ddm_bc_"; "eq_XCTS_flat_exc_T1_ddm_jacobian_eq_"; "eq_XCTS_curve_exc_T1_ddm_jacobian_bc_"]%string).
Proof.
  split.
  - intros n H. rewrite (four_low program_dbs n _ H). vm_compute. reflexivity.
  - intros f n Hf H. rewrite (four_low program_dbs n _ H). clear n H. repeat (destruct Hf as [<-|Hf]; [vm_compute; reflexivity|]). destruct Hf.
Qed.
Print Assumptions C157_variants.
(** With the default parameters and without an over-long alias every field the program can be asked to solve has its four functions and a region. *)
Theorem C157_defaults : forall f v, In (f, v) eq_defaults -> forall get, get (map tolower (S_ "EQ_" ++ S_ f)) = Some (S_ v) ->
  (forall a, get (low (S_ "EQ_" ++ S_ "alias_field_" ++ S_ f)) = Some a -> List.length a < 100) ->
  exists m reg, solving_entry get program_dbs (Some (S_ "EQ_")) (S_ f) = Ok m /\ eq_region (S_ v) = Ok reg.
Proof. intros f v I get. exact (default_entry f v get I). Qed.
Print Assumptions C157_defaults.
Example C157_ex : four program_dbs (S_ "xcts_curve_TYPE3_ddm_PHI2") = map (fun w => Ok (S_ w))
  ["eq_XCTS_curve_T2_ddm_eq_phi"; "eq_XCTS_curve_T3_ddm_bc_phi"; "eq_XCTS_curve_T1_ddm_jacobian_eq_phi"; "eq_XCTS_curve_T3_ddm_jacobian_bc_phi"]%string /\
  four program_dbs (S_ "XCTS_curve_excision_Type2_DDM_psi") = [Abort; Abort; Abort; Abort] /\ In ("phi1", "XCTS_curve_Type2_DDM,NS1")%string eq_defaults.
Proof. split; [|split]; [vm_compute; reflexivity..|right; left; reflexivity]. Qed.

(** C158. The manager of a field f under a prefix p (the program's is "EQ_"), whose parameter p f is the text v: it exists exactly when v is "base,region" and base_f is registered in the four
    data bases; it holds those functions, the field's name, and as alias the parameter p"alias_field_"f, else f itself.  Names of parameters ignore case. *)
Theorem C158_entry : forall l dbs get p f v m, add_eqs l (fun _ => []) = Ok dbs ->
  List.length (p ++ S_ "alias_field_" ++ f) < 100 -> get (low (p ++ f)) = Some v -> List.length v < 100 ->
  (forall a, get (low (p ++ S_ "alias_field_" ++ f)) = Some a -> List.length a < 100) ->
  (solving_entry get dbs (Some p) f = Ok m <->
   exists b r, v = b ++ ","%char :: r /\ ~ In ","%char b /\ s_field m = f /\
     s_alias m = (match get (low (p ++ S_ "alias_field_" ++ f)) with Some a => a | None => f end) /\
     forall k fn, In (k, fn) [(0, s_eq m); (1, s_bc m); (2, s_jac m); (3, s_jacbc m)] ->
       exists g n, In (k, g, n) l /\ low (S_ n) = low (nth k [S_ "eq_"; S_ "bc_"; S_ "jacobian_eq_"; S_ "jacobian_bc_"] [] ++ b ++ "_"%char :: f) /\ fn = S_ g).
Proof.
  intros l dbs get p f v m A L G Lv La. rewrite (entry_ok l dbs get A p f v m L G Lv La). split.
  - intros (b & r & E & N & Hf & Ha & H0 & H1 & H2 & H3). exists b, r. repeat (split; [assumption|]).
    intros k fn [Q|[Q|[Q|[Q|[]]]]]; injection Q as <- <-; [exact H0|exact H1|exact H2|exact H3].
  - intros (b & r & E & N & Hf & Ha & H). exists b, r. repeat (split; [assumption|]). unfold registered.
    split; [apply (H 0); cbn; tauto|]. split; [apply (H 1); cbn; tauto|]. split; [apply (H 2); cbn; tauto|apply (H 3); cbn; tauto].
Qed.
Print Assumptions C158_entry.
(** a missing parameter, or one without a comma, stops the program *)
Theorem C158_abort : forall dbs get p f, List.length (p ++ f) < 100 ->
  (get (low (p ++ f)) = None \/ exists v, get (low (p ++ f)) = Some v /\ List.length v < 100 /\ ~ In ","%char v) -> solving_entry get dbs (Some p) f = Abort.
Proof. intros dbs get. exact (entry_abort dbs get). Qed.
Print Assumptions C158_abort.
(** the managers are those of the nonempty pieces of "solve_order" between commas, in that order *)
Theorem C158_order : forall get dbs prefix par ms, get (S_ "solve_order") = Some par -> ~ In NUL par -> hd_error par <> Some ","%char ->
  (initialize_solving_man get dbs prefix = Ok ms <-> Forall2 (fun f m => solving_entry get dbs prefix f = Ok m) (segments ","%char par) ms).
Proof. exact manager_ok. Qed.
Print Assumptions C158_order.
(** the region is what follows the first comma; the whole grid if that contains ".*"; the solver's grid of a field is the first one registered under its name, else the whole grid *)
Theorem C158_region : forall b r, List.length (b ++ ","%char :: r) < 999 -> ~ In ","%char b ->
  ((forall u w, r <> u ++ S_ ".*" ++ w) -> eq_region (b ++ ","%char :: r) = Ok (Some r)) /\ (forall u w, r = u ++ S_ ".*" ++ w -> eq_region (b ++ ","%char :: r) = Ok None).
Proof.
  intros b r L N. rewrite (region_ok b r L N). split.
  - intros H. destruct (strstr r (S_ ".*")) as [[q1 q2]|] eqn:E; [|reflexivity]. exfalso. destruct (strstr_contains _ _ _ _ E) as (u & w & X). exact (H u w X).
  - intros u w E. destruct (strstr r (S_ ".*")) as [q|] eqn:F; [reflexivity|]. exfalso. revert F. intros F. apply strstr_none_contains in F. apply F. exists u, w. exact E.
Qed.
Print Assumptions C158_region.
Theorem C158_grid : forall (G : Type) (l : list (str * G)) whole n,
  (forall g, NoDup (map fst l) -> In (n, g) l -> get_grid l whole n = g) /\ (~ In n (map fst l) -> get_grid l whole n = whole) /\
  (forall g, ~ In n (map fst l) -> get_grid (add_special_grid l g n) whole n = g) /\
  (forall g m, In n (map fst l) \/ m <> n -> get_grid (add_special_grid l g m) whole n = get_grid l whole n).
Proof.
  intros G l whole n. split; [intros g; apply grid_of|]. split; [apply grid_none|]. split.
  2:{ intros g m. unfold add_special_grid. induction l as [|[k h] l IH]; cbn [List.app get_grid map fst In]; intros H.
      - unfold str_eqb. destruct (list_eq_dec ascii_dec m n); [|reflexivity]. destruct H as [[]|]; congruence.
      - unfold str_eqb. destruct (list_eq_dec ascii_dec k n) as [->|]; [reflexivity|]. apply IH. destruct H as [[H|H]|H]; [congruence|left; exact H|right; exact H]. }
  intros g N. unfold add_special_grid. induction l as [|[m h] l IH]; cbn [List.app get_grid] in *.
  - unfold str_eqb. destruct (list_eq_dec ascii_dec n n); congruence.
  - cbn [map fst In] in N. unfold str_eqb. destruct (list_eq_dec ascii_dec m n) as [->|]; [tauto|]. apply IH. tauto.
Qed.
Print Assumptions C158_grid.
(** Without a prefix (the module's own tests pass 0) the alias of every field is the empty text, and the solver's look-up of the field of that name stops the program for every patch
    whose fields all have names (solve_eqs_ddm_schur_complement.c:346,381,2283,2345). *)
Theorem C158_alias_refuted : forall l dbs get f m, add_eqs l (fun _ => []) = Ok dbs -> List.length f < 200 -> solving_entry get dbs None f = Ok m ->
  s_alias m = [] /\ forall (V : Type) (pool : list (FieldModel.field V)), (forall x, In x pool -> FieldModel.fname V x <> []) -> FieldModel.Ind V (s_alias m) pool = Abort.
Proof.
  intros l dbs get f m A L E. apply (entry_bare l dbs get A f m L) in E. destruct E as (_ & -> & _). split; [reflexivity|].
  intros V pool H. unfold FieldModel.Ind, FieldModel.LookUpField.
  assert (X : forall i, FieldModel.lookup_from V i [] pool = INT_MIN).
  { induction pool as [|x pool IH]; intros i; [reflexivity|]. cbn [FieldModel.lookup_from].
    assert (N : FieldModel.fname V x <> []) by (apply H; left; reflexivity). unfold str_eqb. destruct (list_eq_dec ascii_dec (FieldModel.fname V x) []); [contradiction|].
    apply IH. intros y I. apply H. right. exact I. }
  rewrite X. reflexivity.
Qed.
Print Assumptions C158_alias_refuted.
Definition ex_get (n : str) : option str :=
  if str_eqb n (S_ "eq_phi1") then Some (S_ "XCTS_curve_Type4_DDM,NS1") else if str_eqb n (S_ "eq_psi") then Some (S_ "XCTS_curve_excision_Type1_DDM,.*")
  else if str_eqb n (S_ "eq_alias_field_phi1") then Some (S_ "phi") else if str_eqb n (S_ "solve_order") then Some (S_ "psi,phi1") else None.
Example C158_ex : initialize_solving_man ex_get program_dbs (Some (S_ "EQ_")) = Ok
  [mksman (S_ "psi") (S_ "psi") (S_ "eq_XCTS_curve_exc_T1_ddm_eq_psi") (S_ "eq_XCTS_curve_exc_T1_ddm_bc_psi") (S_ "eq_XCTS_curve_exc_T1_ddm_jacobian_eq_psi") (S_ "eq_XCTS_curve_exc_T1_ddm_jacobian_bc_psi");
   mksman (S_ "phi1") (S_ "phi") (S_ "eq_XCTS_curve_T1_ddm_eq_phi") (S_ "eq_XCTS_curve_T3_ddm_bc_phi") (S_ "eq_XCTS_curve_T1_ddm_jacobian_eq_phi") (S_ "eq_XCTS_curve_T3_ddm_jacobian_bc_phi")] /\
  eq_region (S_ "XCTS_curve_Type4_DDM,NS1") = Ok (Some (S_ "NS1")) /\ eq_region (S_ "XCTS_curve_excision_Type1_DDM,.*") = Ok None /\
  eq_region (S_ "no region") = Abort /\ (exists m d, add_eqs [(0, "f", "eq_a"); (1, "g", "bc_a"); (2, "h", "jacobian_eq_a"); (3, "k", "jacobian_bc_a")]%string (fun _ => []) = Ok d /\
     solving_entry ex_get d None (S_ "a") = Ok m /\ s_alias m = []).
Proof.
  split; [vm_compute; reflexivity|]. split; [vm_compute; reflexivity|]. split; [vm_compute; reflexivity|]. split; [vm_compute; reflexivity|].
  eexists. eexists. split; [reflexivity|]. split; [vm_compute; reflexivity|reflexivity].
Qed.

(** C159. The outer loop of the elliptic solve.  A field of a patch is absent, without values, or has values; W is the weight of each field, [names] the fields of solve_Order, the solver any
    function on all fields of all patches.  [keeps]: the solver does not add or remove patches, fields or arrays; [proper]: its result depends on the fields only.
    One round writes into each named field W new + (1 - W) old (just new if W = 1), and leaves the others as the solver did. *)
Section C159.
Import RealBase EqRelax EqRelaxProofs.
Open Scope R_scope.
Theorem C159_loop : forall max_iter W names solve g, NoDup names -> keeps solve -> proper solve ->
  Forall (fun p => forall f, In f names -> cur p f <> Absent -> bck p f <> Absent) g ->
  exists g', eq_solve max_iter W names solve g = Base.Ok g' /\ Forall2 (fun a b => forall f, a f = b f) (map cur g') (Nat.iter max_iter (round W names solve) (map cur g)).
Proof.
  intros m W names solve g ND K P H. destruct (eq_solve_ok m W names solve g ND K P H) as (g' & E & F). exists g'. split; [exact E|].
  rewrite rounds_iter in F. exact F.
Qed.
Print Assumptions C159_loop.
Theorem C159_round : forall W names old new f,
  (In f names -> ROUND_OFF_ERR <= Rabs (W f - 1) -> forall v o, new f = Val v -> old f = Val o -> exists u, relaxed W names old new f = Val u /\ forall i, u i = W f * v i + (1 - W f) * o i) /\
  (Rabs (W f - 1) < ROUND_OFF_ERR -> relaxed W names old new f = new f) /\ (~ In f names -> relaxed W names old new f = new f).
Proof.
  intros W names old new f. split; [|split].
  - intros I H v o Hv Ho. unfold relaxed. destruct (in_dec (list_eq_dec Ascii.ascii_dec) f names); [|contradiction]. apply EQL_false in H. rewrite H, Hv, Ho. eexists. split; [reflexivity|]. reflexivity.
  - intros H. unfold relaxed. apply EQL_iff in H. rewrite H. destruct (in_dec (list_eq_dec Ascii.ascii_dec) f names); reflexivity.
  - apply unnamed_not_relaxed.
Qed.
Print Assumptions C159_round.
(** a solver that always finds the same solution s: after n rounds the distance of a named field is (1 - W)^n times the first *)
Theorem C159_convergence : forall W names f (sol : list fields), In f names -> ROUND_OFF_ERR <= Rabs (W f - 1) ->
  forall n (g : list fields) k (s u : nat -> R) (a b : fields), length g = length sol -> nth_error sol k = Some b -> b f = Val s -> nth_error g k = Some a -> a f = Val u ->
  exists c v, nth_error (Nat.iter n (round W names (fun _ => sol)) g) k = Some c /\ c f = Val v /\ forall i, v i - s i = (1 - W f) ^ n * (u i - s i).
Proof.
  intros W names f sol I H n g k s u a b L Hs Hb Hg Ha. apply EQL_false in H. destruct (rounds_geometric W names f sol I H n g k s u a b L Hs Hb Hg Ha) as (c & v & A & B & C).
  rewrite rounds_iter in A. exists c, v. auto.
Qed.
Print Assumptions C159_convergence.
(** The weight of a Newton update: that of the field if there is one, else the general one, else 1 *)
Theorem C159_newton_weight : forall all one, newton_weight all one = match one, all with Some w, _ => w | None, Some w => w | None, None => 1 end.
Proof. intros [a|] [b|]; reflexivity. Qed.
Print Assumptions C159_newton_weight.
(** The field solved for "phi1" in solve_Order is the one its alias names (C158_entry).  It is not relaxed: the loop asks for the fields named in solve_Order, finds none called phi1 and skips it. *)
Theorem C159_alias_refuted : forall W old new alias f, alias <> f -> new f = Absent ->
  relaxed W [f] old new alias = new alias /\ relaxed W [f] old new f = Absent.
Proof.
  intros W old new alias f N H. split; [apply unnamed_not_relaxed; intros [E|[]]; congruence|]. unfold relaxed.
  destruct (in_dec (list_eq_dec Ascii.ascii_dec) f [f]); [|exact H]. rewrite H. destruct (EQL (W f) 1); reflexivity.
Qed.
Print Assumptions C159_alias_refuted.
(** A field named twice in solve_Order is relaxed twice in a round: the effective weight is W^2. *)
Theorem C159_twice_refuted : forall W f v o b c, ROUND_OFF_ERR <= Rabs (W f - 1) -> b f = Val o -> c f = Val v ->
  exists g u, relax W [f; f] [mkpatch c b] = Base.Ok g /\ map (fun p => cur p f) g = [Val u] /\ forall i, u i - o i = (W f * W f) * (v i - o i).
Proof.
  intros W f v o b c H B C. apply EQL_false in H. destruct (twice W f v o b H B c C) as (q & E & u & U & X).
  unfold relax. cbn [fold_o EqModel.omap] in *. destruct (relax1 (W f) f (mkpatch c b)) as [q1| |]; try discriminate. cbn [Base.obind EqModel.omap] in *.
  destruct (relax1 (W f) f q1) as [q2| |]; try discriminate. cbn [Base.obind EqModel.omap] in *. injection E as ->.
  exists [q], u. split; [reflexivity|]. split; [cbn [map]; rewrite U; reflexivity|]. intros i. rewrite X. ring.
Qed.
Print Assumptions C159_twice_refuted.
Definition ex_f : str := S_ "psi".
Definition ex_p (x : R) : patch := mkpatch (fun g => if str_eqb g ex_f then Val (fun _ => x) else Absent) (fun g => if str_eqb g ex_f then Novals else Absent).
Definition ex_solve (l : list fields) : list fields := map (fun a g => match a g with Val _ => Val (fun _ => 3) | x => x end) l.
Example C159_ex : exists g' v, eq_solve 2 (fun _ => 1/2) [ex_f] ex_solve [ex_p 1] = Base.Ok g' /\ map (fun p => cur p ex_f) g' = [Val v] /\ v 0%nat = 5/2.
Proof.
  assert (N : EQL (1/2) 1 = false) by (apply EQL_false; unfold ROUND_OFF_ERR; rewrite Rabs_left; lra).
  destruct (C159_loop 2 (fun _ => 1/2) [ex_f] ex_solve [ex_p 1]) as (g' & E & F).
  - constructor; [intros []|constructor].
  - intros g. unfold ex_solve. induction g as [|a g IH]; cbn [map]; constructor; [|exact IH]. intros f. destruct (a f); reflexivity.
  - intros g h H. unfold ex_solve. induction H as [|? ? ? ? H1 H2 IH]; cbn [map]; constructor; [|exact IH]. intros f. rewrite H1. reflexivity.
  - constructor; [|constructor]. intros f [<-|[]] _. cbn. discriminate.
  - assert (S1 : forall (a : fields) x, a ex_f = Val x -> exists b y, round (fun _ => 1/2) [ex_f] ex_solve [a] = [b] /\ b ex_f = Val y /\ forall i, y i = 1/2*3 + (1 - 1/2)*x i).
    { intros a x Hx. unfold round, ex_solve. cbn [map combine fst snd]. eexists. eexists. split; [reflexivity|]. unfold relaxed.
      destruct (in_dec (list_eq_dec Ascii.ascii_dec) ex_f [ex_f]) as [_|n]; [|exfalso; apply n; left; reflexivity]. rewrite N, Hx. split; reflexivity. }
    assert (H0 : cur (ex_p 1) ex_f = Val (fun _ => 1)) by reflexivity.
    destruct (S1 _ _ H0) as (b1 & y1 & E1 & B1 & Y1). destruct (S1 _ _ B1) as (b2 & y2 & E2 & B2 & Y2).
    change (Nat.iter 2 (round (fun _ => 1/2) [ex_f] ex_solve) (map cur [ex_p 1])) with (round (fun _ => 1/2) [ex_f] ex_solve (round (fun _ => 1/2) [ex_f] ex_solve [cur (ex_p 1)])) in F.
    rewrite E1, E2 in F. destruct g' as [|p [|q g']]; cbn [map] in F; [inversion F| |inversion F as [|? ? ? ? P F1]; inversion F1].
    inversion F as [|? ? ? ? P F1]; subst. exists [p], y2. split; [exact E|]. split; [cbn [map]; rewrite P, B2; reflexivity|]. rewrite Y2, Y1. field.
Qed.
End C159.
