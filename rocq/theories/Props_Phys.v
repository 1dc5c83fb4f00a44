(** Props_Phys.v - C163-C168: commands, objects of a system and their regions, words of the modules, the first guess of the fields and the free data. *)
From Coq Require Import Reals Lra Lia.
From Verif Require Import Base TextModel TextToolsModel TextToolsSpec TextToolsProofs RegionModel GenCmd PhysModel PhysProofs StartModel StartProofs.
Open Scope list_scope.
Local Notation low := (map tolower).

(** C163. Every command of the interface is carried out: command number n (1 to 42) is sent to exactly the function of its row, no two commands to the same one; any other number stops the
    program; afterwards the current command is 0 again. *)
Theorem C163_commands : forall n, physics_main n =
  match n with O => Abort | S n' => match nth_error [
   ("STAR_TUNE_EULER_CONST", "tune_star_Euler_constant"); ("STAR_TUNE_FORCE_BALANCE", "tune_star_force_balance_equation"); ("STAR_TUNE_CENTER", "tune_star_center");
   ("STAR_EXTRAPOLATE_MATTERS", "extrapolate_star_matter"); ("STAR_START", "start_off_star"); ("STAR_SET_PARAMS", "set_star_params");
   ("STAR_ADD_FIELDS", "add_star_fields"); ("STAR_FIND_SURFACE", "find_star_surface"); ("STRESS_ENERGY_UPDATE", "update_stress_energy_tensor");
   ("STRESS_ENERGY_SET_PARAMS", "set_stress_energy_params"); ("STRESS_ENERGY_ADD_FIELDS", "add_stress_energy_tensor_fields"); ("BH_TUNE_RADIUS", "tune_black_hole_radius");
   ("BH_TUNE_SPIN", "tune_black_hole_spin"); ("BH_FILL", "bh_fill_inside_black_hole"); ("BH_FIND_SURFACE", "find_black_hole_surface");
   ("BH_START", "start_off_black_hole"); ("BH_SET_PARAMS", "set_black_hole_params"); ("BH_ADD_FIELDS", "add_black_hole_fields");
   ("BH_UPDATE_sConf", "update_conformal_normal_vector_on_AH"); ("BH_UPDATE_INNER_BC", "update_inner_BC_values"); ("FREE_DATA_SET_PARAMS", "set_free_data_params");
   ("FREE_DATA_ADD_FIELDS", "add_free_data_fields"); ("FREE_DATA_POPULATE", "populate_free_data"); ("SYS_SET_PARAMS", "set_system_params");
   ("SYS_ADD_FIELDS", "add_system_fields"); ("SYS_TUNE_P_ADM", "tune_system_ADM_momenta"); ("SYS_INITIALIZE_FIELDS", "initialize_fields");
   ("ADM_SET_PARAMS", "set_adm_params"); ("ADM_ADD_FIELDS", "add_adm_fields"); ("ADM_UPDATE_Kij", "compute_adm_Kij");
   ("ADM_UPDATE_KIJ", "compute_adm_KIJ"); ("ADM_UPDATE_gij", "compute_adm_gij"); ("ADM_UPDATE_AConfIJ", "compute_AConfIJ");
   ("ADM_UPDATE_beta", "compute_beta"); ("ADM_UPDATE_B1I", "compute_B1I"); ("ADM_COMPUTE_CONSTRAINTS", "compute_ham_and_mom_constrains");
   ("ADM_DOCTEST", "preform_adm_doctest"); ("OBSERVE_SET_PARAMS", "set_observe_params"); ("OBSERVE_ADD_FIELDS", "add_observe_fields");
   ("EQ_SET_PARAMS", "set_equation_params"); ("EQ_ADD_FIELDS", "add_equation_fields"); ("EQ_SOLVE", "solve_equation")]%string n' with Some (_, f) => Ok f | None => Abort end end.
Proof.
  intros n. destruct (Nat.lt_ge_cases n 43) as [L|L].
  - do 43 (destruct n as [|n]; [vm_compute; reflexivity|]). exfalso. lia.
  - rewrite commands_abort by (right; exact L). destruct n as [|n]; [reflexivity|]. replace (nth_error _ n) with (@None (string * string)); [reflexivity|].
    symmetry. apply nth_error_None. cbn [List.length]. lia.
Qed.
Print Assumptions C163_commands.
Theorem C163_total : forall n, (0 < n < 43 -> exists f, physics_main n = Ok f) /\ (n = 0 \/ 43 <= n -> physics_main n = Abort).
Proof. intros n. split; [exact (commands_ok n)|exact (commands_abort n)]. Qed.
Print Assumptions C163_total.
Theorem C163_injective : forall a b f, physics_main a = Ok f -> physics_main b = Ok f -> a = b.
Proof. exact commands_inj. Qed.
Print Assumptions C163_injective.
Theorem C163_reset : forall n before, (0 < n < 43 -> cmd_after n before = Ok 0) /\ (n = 0 \/ 43 <= n -> cmd_after n before = Abort).
Proof.
  intros n b. unfold cmd_after. split; intros H.
  - destruct (commands_ok n H) as (f & ->). reflexivity.
  - rewrite (commands_abort n H). reflexivity.
Qed.
Print Assumptions C163_reset.
Example C163_ex : physics_main 5 = Ok "start_off_star"%string /\ physics_main 42 = Ok "solve_equation"%string /\ physics_main 43 = Abort /\ physics_main 0 = Abort.
Proof. repeat split; vm_compute; reflexivity. Qed.

(** C164. An object: its kind, its text, the system of the project, and its place, the first of the allowed words found in its grid_set parameter, in any case; every other project, object or
    place stops the program. *)
Theorem C164_objects : forall get t c st place, In (t, (c, st, place))
    (let two := [("left", LEFT); ("right", RIGHT)] in let three := [("left", LEFT); ("right", RIGHT); ("center", CENTER)] in let one := [("center", CENTER)] in
     [(NS, (NS, "NS", Some ("grid_set_NS", three))); (NS1, (NS, "NS1", Some ("grid_set_NS1", two))); (NS2, (NS, "NS2", Some ("grid_set_NS2", two)));
      (BH, (BH, "BH", Some ("grid_set_BH", three))); (BH1, (BH, "BH1", Some ("grid_set_BH1", two))); (BH2, (BH, "BH2", Some ("grid_set_BH2", two)));
      (SNS, (SNS, "SNS", Some ("grid_set_NS", one))); (SBH, (SBH, "SBH", Some ("grid_set_BH", one)));
      (BHNS, (BHNS, "BHNS", None)); (BHBH, (BHBH, "BHBH", None)); (NSNS, (NSNS, "NSNS", None))])%string ->
  init_physics get t =
  match get "project"%string with None => Abort | Some prj =>
  match find (fun r => str_eqb (low prj) (low (S_ (fst r))))
    [("BH_NS_binary_initial_data", (BHNS, "BHNS")); ("NS_NS_binary_initial_data", (NSNS, "NSNS")); ("BH_BH_binary_initial_data", (BHBH, "BHBH"));
     ("Single_BH_initial_data", (SBH, "SBH")); ("Single_NS_initial_data", (SNS, "SNS")); ("Modules_Test", (OBJ_UNDEFINED, "OBJ_UNDEFINED"));
     ("TOV_Star", (OBJ_UNDEFINED, "OBJ_UNDEFINED"))]%string with None => Abort | Some (_, (sys, ssys)) =>
  match place with
  | None => Ok (mkphys t c st sys ssys NONE)
  | Some (key, sides) =>
    match get key with None => Abort | Some v =>
    match find (fun w => found (low v) (low (S_ (fst w)))) sides with None => Abort | Some (_, p) => Ok (mkphys t c st sys ssys p) end end
  end end end.
Proof. exact init_ok. Qed.
Print Assumptions C164_objects.
Theorem C164_undefined : forall get, init_physics get OBJ_UNDEFINED = Abort.
Proof. intros get. unfold init_physics. destruct (Pgets_n get "project") as [p| |] eqn:E; [|reflexivity|unfold Pgets_n in E; destruct (get "project"%string); discriminate]. cbn [obind].
  destruct (system_of p) as [[? ?]| |] eqn:S; [reflexivity|reflexivity|]. exfalso. revert S. unfold system_of. repeat (destruct (strcmp_i _ _); [discriminate|]). discriminate.
Qed.
Print Assumptions C164_undefined.
(** Nothing checks that the object belongs to the system, that two objects have different places, or that only one place is named. *)
Definition ex_get (n : string) : option str :=
  if String.eqb n "project" then Some (S_ "ns_ns_binary_initial_data") else if String.eqb n "grid_set_NS1" then Some (S_ "right, not left")
  else if String.eqb n "grid_set_NS2" then Some (S_ "left") else if String.eqb n "grid_set_BH" then Some (S_ "left") else if String.eqb n "start_off" then Some (S_ "isoschild")
  else if String.eqb n "surface_type" then Some (S_ "KerrSchild_s2") else None.
Theorem C164_loose_refuted : exists get, init_physics get NS1 = Ok (mkphys NS1 NS "NS1" NSNS "NSNS" LEFT) /\ init_physics get NS2 = Ok (mkphys NS2 NS "NS2" NSNS "NSNS" LEFT) /\
  init_physics get BH = Ok (mkphys BH BH "BH" NSNS "NSNS" LEFT).
Proof. exists ex_get. repeat split; vm_compute; reflexivity. Qed.
Print Assumptions C164_loose_refuted.
Example C164_ex : (let get n := if String.eqb n "project" then Some (S_ "Single_NS_initial_data") else if String.eqb n "grid_set_NS" then Some (S_ "Center") else None in
    init_physics get SNS = Ok (mkphys SNS SNS "SNS" SNS "SNS" CENTER) /\ init_physics get NS = Ok (mkphys NS NS "NS" SNS "SNS" CENTER) /\ init_physics get NS1 = Abort /\ init_physics get BH = Abort).
Proof. repeat split; vm_compute; reflexivity. Qed.

(** C165. Region strings are adjusted to the object.  [occurs p s]: p is a part of s; [join p l]: the texts of l with p between them; [first_at_end p a]: p occurs in a ++ p only at its end.
    ".*" and texts without NS and BH are left alone; the words of two objects are for the grid of these two only. *)
Theorem C165_kept : forall k ph s,
  (s = S_ ".*" \/ ~ occurs (S_ "NS") s /\ ~ occurs (S_ "BH") s -> phys_autoindex_stype k ph s = Ok s) /\
  (occurs (S_ "NS") s -> occurs (S_ "BH") s -> phys_autoindex_stype k ph s = if kind_eqb k K_SCS_BHNS then Ok s else Abort) /\
  (occurs (S_ "NS1") s -> occurs (S_ "NS2") s -> ~ occurs (S_ "BH") s -> phys_autoindex_stype k ph s = if kind_eqb k K_SCS_NSNS then Ok s else Abort) /\
  (occurs (S_ "BH1") s -> occurs (S_ "BH2") s -> ~ occurs (S_ "NS") s -> phys_autoindex_stype k ph s = if kind_eqb k K_SCS_BHBH then Ok s else Abort).
Proof.
  intros k ph s. split; [intros [->|[A B]]; [apply auto_all|apply auto_plain; assumption]|]. split; [apply auto_two|]. split; intros A B C.
  - apply (auto_both k ph s (S_ "NS") (S_ "BH")); auto. apply (occurs_sub _ _ _ A). exists [], ["1"%char]. reflexivity.
  - apply (auto_both k ph s (S_ "BH") (S_ "NS")); auto. apply (occurs_sub _ _ _ A). exists [], ["1"%char]. reflexivity.
Qed.
Print Assumptions C165_kept.
(** in any other text naming one object, the objects NS and BH, and a text that has a number already, change nothing *)
Theorem C165_numbered_kept : forall k ph s o o', (o = S_ "NS" /\ o' = S_ "BH") \/ (o = S_ "BH" /\ o' = S_ "NS") -> occurs o s -> ~ occurs o' s ->
  ~ (occurs (o ++ ["1"%char]) s /\ occurs (o ++ ["2"%char]) s) -> ph_type ph = NS \/ ph_type ph = BH \/ In "1"%char s \/ In "2"%char s -> phys_autoindex_stype k ph s = Ok s.
Proof. intros k ph s o o' Ho A B. exact (auto_kept k ph s o o' Ho A B). Qed.
Print Assumptions C165_numbered_kept.
(** for a numbered object every occurrence becomes the object's text, nothing else changes, and the result must be shorter than 99 characters *)
Theorem C165_indexed : forall k ph s o o' l, In (ph_type ph, ph_ctype ph, ph_stype ph) [(NS1, NS, "NS1"); (NS2, NS, "NS2"); (BH1, BH, "BH1"); (BH2, BH, "BH2")]%string ->
  (o = S_ "NS" /\ o' = S_ "BH") \/ (o = S_ "BH" /\ o' = S_ "NS") -> occurs o s -> ~ occurs o' s -> ~ In "1"%char s -> ~ In "2"%char s ->
  s = join o l -> l <> [] -> Forall (first_at_end o) (removelast l) -> ~ occurs o (last l []) ->
  phys_autoindex_stype k ph s = if Nat.ltb (List.length (join (S_ (ph_stype ph)) l)) 99 then Ok (join (S_ (ph_stype ph)) l) else UB.
Proof. intros k ph s o o' l I Ho A B N1 N2 E Nl HF HL. exact (indexed k ph s o o' l I Ho E Nl HF HL A B N1 N2). Qed.
Print Assumptions C165_indexed.
(** ... and every text is such a join *)
Theorem C165_split : forall p s, p <> [] -> exists l, l <> [] /\ s = join p l /\ Forall (first_at_end p) (removelast l) /\ ~ occurs p (last l []).
Proof. exact split_exists. Qed.
Print Assumptions C165_split.
(** the other objects (SNS, SBH and the systems) must not name a star or a hole without a number *)
Theorem C165_others : forall k get t ph s o o', init_physics get t = Ok ph -> In t [SNS; SBH; BHNS; BHBH; NSNS] -> (o = S_ "NS" /\ o' = S_ "BH") \/ (o = S_ "BH" /\ o' = S_ "NS") ->
  occurs o s -> ~ occurs o' s -> ~ In "1"%char s -> ~ In "2"%char s -> phys_autoindex_stype k ph s = Abort.
Proof.
  intros k get t ph s o o' E I Ho A B N1 N2. destruct (init_shape get t ph E) as [T W]. rewrite <- T in I.
  assert (X : ph_ctype ph = ph_type ph).
  { destruct W as [W|[_ W]]; [|exact W]. exfalso. unfold numbered in W. cbn [In] in W.
    repeat (destruct W as [W|W]; [injection W as W _ _; rewrite <- W in I; repeat (destruct I as [I|I]; [discriminate I|]); exact I|]). exact W. }
  rewrite (auto_free k ph s o o' Ho A B N1 N2); [rewrite X| |];
    repeat (destruct I as [I|I]; [rewrite <- I; first [reflexivity|discriminate]|]); destruct I.
Qed.
Print Assumptions C165_others.
(** adjusting twice is adjusting once, for every object of the program *)
Theorem C165_idempotent : forall k get t ph s r, init_physics get t = Ok ph -> phys_autoindex_stype k ph s = Ok r -> phys_autoindex_stype k ph r = Ok r.
Proof. intros k get t ph s r E. apply idempotent. exact (proj2 (init_shape get t ph E)). Qed.
Print Assumptions C165_idempotent.
(** the grid of a region is made of the patches the adjusted text selects (C136); all region words of one object have their numbered version *)
Theorem C165_grid : forall k g ph t n w, In (t, n) [(NS1, "NS1"); (NS2, "NS2")]%string -> In w [""; "_around"; "_around_IB"; "_around_OB"; "_OB"]%string ->
  ph_type ph = t -> ph_ctype ph = NS -> ph_stype ph = n ->
  mygrid k g ph (S_ "NS" ++ S_ w) = collect_patches k g (S_ n ++ S_ w) /\ In (S_ n ++ S_ w) dictionary.
Proof.
  intros k g [t0 c0 st0 sys ssys p] t n w I J. cbn [ph_type ph_ctype ph_stype]. intros -> -> ->. unfold mygrid. split.
  - repeat (destruct I as [I|I]; [injection I as <- <-; repeat (destruct J as [<-|J]; [vm_compute; reflexivity|]); destruct J|]); destruct I.
  - apply (ltac:(intros d x; destruct (existsb (str_eqb x) d) eqn:E; [intros _; apply existsb_exists in E; destruct E as (y & Iy & Ey); destruct (str_eqb_spec x y); [subst; exact Iy|discriminate]|intros X; exact X])
      : forall d x, (if existsb (str_eqb x) d then True else In x d) -> In x d).
    repeat (destruct I as [I|I]; [injection I as <- <-; repeat (destruct J as [<-|J]; [vm_compute; exact Logic.I|]); destruct J|]); destruct I.
Qed.
Print Assumptions C165_grid.
(** A numbered object also takes the words of the other kind for its own, and a long list of regions writes past the 99 characters. *)
Theorem C165_careless_refuted : forall k sys ssys p, let ph := mkphys NS2 NS "NS2" sys ssys p in
  phys_autoindex_stype k ph (S_ "BH_around") = Ok (S_ "NS2_around") /\
  phys_autoindex_stype k ph (S_ "NS,NS_around_IB,NS_around_OB,NS_OB,outermost,filling_box,left_central_box,right_central_box,NS_around") = UB.
Proof. intros k sys ssys p. split; vm_compute; reflexivity. Qed.
Print Assumptions C165_careless_refuted.
Example C165_ex : let ph := mkphys NS2 NS "NS2" NSNS "NSNS" LEFT in
  phys_autoindex_stype K_SCS_NSNS ph (S_ "NS,NS_around,outermost") = Ok (S_ "NS2,NS2_around,outermost") /\ phys_autoindex_stype K_SCS_NSNS ph (S_ "NS1") = Ok (S_ "NS1") /\
  S_ "NS,NS_around,outermost" = join (S_ "NS") [[]; S_ ","; S_ "_around,outermost"] /\ occurs (S_ "NS") (S_ "NS,NS_around,outermost").
Proof. repeat split; try (vm_compute; reflexivity). exists [], (S_ ",NS_around,outermost"). reflexivity. Qed.

(** C166. The words of the modules.  [par_is src n w]: parameter n of src has value w up to case.  A star's command calls the function of its row exactly if the star is an ideal fluid NS with a
    general metric (and the criterion for the Euler constant is the known one); otherwise nothing is called and the program stops. *)
Theorem C166_star : forall par get cmd f, let par_is (src : string -> option str) n w := exists v, src n = Some v /\ low v = low (S_ w) in
  star_action par get cmd = Ok f <->
  (cmd = "STAR_START"%string /\ f = "star_start_off_TOV"%string /\ par_is get "start_off"%string "TOV"%string) \/
  (In (cmd, f) [("STAR_TUNE_EULER_CONST", "star_NS_ifluid_gConf_find_EulerC_fix_baryon_mass"); ("STAR_EXTRAPOLATE_MATTERS", "star_NS_idealfluid_extrapolate_matter_fields");
     ("STAR_FIND_SURFACE", "star_NS_find_star_surface"); ("STAR_TUNE_FORCE_BALANCE", "star_NS_idealfluid_gConf_force_balance");
     ("STAR_TUNE_CENTER", "star_NS_keep_center_fixed"); ("STAR_ADD_FIELDS", "star_NS_idealfluid_gConf_add_fields")]%string /\
   par_is par "type"%string "NS"%string /\ par_is par "NS_fluid"%string "ideal_fluid"%string /\ par_is par "NS_gConf"%string "general"%string /\
   (cmd = "STAR_TUNE_EULER_CONST"%string -> par_is get "Euler_const_criteria"%string "fix_baryonic_mass"%string)).
Proof. exact star_ok. Qed.
Print Assumptions C166_star.
(** a hole's command: the function of the row all of whose words the hole's parameters have *)
Theorem C166_hole : forall get cmd f, bh_action get cmd = Ok f <->
  exists ws, In (cmd, ws, f)
   [("BH_TUNE_RADIUS", [("tune_BH_radius_criteria", "fix_irreducible_mass"); ("surface_type", "perfect_s2")], "bh_tune_BH_radius_irreducible_mass_perfect_s2");
    ("BH_TUNE_SPIN", [], "bh_tune_BH_chi_simple");
    ("BH_FIND_SURFACE", [("surface_type", "perfect_s2")], "bh_find_bh_surface_perfect_s2"); ("BH_FIND_SURFACE", [("surface_type", "KerrSchild_s2")], "bh_find_bh_surface_KerrSchild_s2");
    ("BH_START", [("start_off", "KerrSchild"); ("surface_type", "perfect_s2")], "bh_start_off_KerrSchild_perfect_s2");
    ("BH_START", [("start_off", "KerrSchild"); ("surface_type", "KerrSchild_s2")], "bh_start_off_KerrSchild_general_s2");
    ("BH_START", [("start_off", "CloseKerrSchild"); ("surface_type", "perfect_s2")], "bh_start_off_CloseKerrSchild_perfect_s2");
    ("BH_START", [("start_off", "IsoSchild"); ("surface_type", "perfect_s2")], "bh_start_off_IsoSchild_perfect_s2");
    ("BH_START", [("start_off", "PGSchild"); ("surface_type", "perfect_s2")], "bh_start_off_PGSchild_perfect_s2")]%string /\
   Forall (fun w => exists v, get (fst w) = Some v /\ low v = low (S_ (snd w))) ws.
Proof.
  intros get cmd f. rewrite bh_ok, Exists_exists. split.
  - intros ([[c ws] g] & I & -> & -> & F). exists ws. split; [exact I|exact F].
  - intros (ws & I & F). exists (cmd, ws, f). split; [exact I|]. split; [reflexivity|]. split; [reflexivity|exact F].
Qed.
Print Assumptions C166_hole.
Theorem C166_stress : forall par cmd f, let par_is n w := exists v, par n = Some v /\ low v = low (S_ w) in Tij_action par cmd = Ok f <->
  (par_is "NS_decomposition"%string "XCTS"%string /\ par_is "NS_gConf"%string "general"%string) /\
  ((cmd = "STRESS_ENERGY_ADD_FIELDS"%string /\ f = "Tij_NS_idealfluid_XCTS_gConf_add_fields"%string) \/
   (cmd = "STRESS_ENERGY_UPDATE"%string /\ f = "Tij_NS_idealfluid_XCTS_gConf_update"%string /\ par_is "fluid"%string "NS_ideal_fluid"%string)).
Proof. exact Tij_ok. Qed.
Print Assumptions C166_stress.
Example C166_ex : bh_action ex_get "BH_START" = Abort /\ bh_action ex_get "BH_FIND_SURFACE" = Ok "bh_find_bh_surface_KerrSchild_s2"%string /\
  star_action (fun n => Some (if String.eqb n "type" then S_ "ns" else if String.eqb n "NS_gConf" then S_ "general" else S_ "ideal_fluid")) ex_get "STAR_TUNE_CENTER" = Ok "star_NS_keep_center_fixed"%string /\
  Tij_action (fun n => Some (if String.eqb n "fluid" then S_ "NS_ideal_fluid" else if String.eqb n "NS_gConf" then S_ "flat" else S_ "XCTS")) "STRESS_ENERGY_UPDATE" = Abort.
Proof. repeat split; vm_compute; reflexivity. Qed.

(** C167. The first guess at a node.  The solutions at the node are given: [bh k o] of hole o in the form k, [ns o] of star o.  [runs l st vals]: the program l ends, each field named in vals then has its value
    and every other field is as before (so the auxiliary fields are gone). *)
Open Scope R_scope.
Open Scope string_scope.
Definition runs (l : outcome (list act)) (st : fields) (vals : list (string * R)) : Prop := exists a st', l = Ok a /\ run a st = Ok st' /\
  forall n, st' n = match find (fun e => String.eqb (fst e) n) vals with Some e => Some (Some (snd e)) | None => st n end.
Definition matter_of (s : nssol) : list (string * R) :=
  if s_inside s then [("enthalpy", s_h s); ("rho0", s_rho0 s); ("phi", s_phi s); ("W_U0", s_W0 s); ("W_U1", s_W1 s); ("W_U2", s_W2 s)] else [].
Definition have (st : fields) (l : list string) : Prop := Forall (fun n => st n <> None) l.
Definition free (st : fields) (l : list string) : Prop := Forall (fun n => st n = None) l.
Definition five := ["psi"; "alphaPsi"; "beta_U0"; "beta_U1"; "beta_U2"].
Definition six := ["enthalpy"; "rho0"; "phi"; "W_U0"; "W_U1"; "W_U2"].
Lemma ok_runs l st vals : ok_run l st vals -> forall r, r = Ok l -> runs r st vals.
Proof. intros (st' & E & H) r ->. exists l, st'. split; [reflexivity|]. split; [exact E|]. intros n. rewrite H. unfold after, lookup. destruct (find _ vals) as [[? ?]|]; reflexivity. Qed.
(** one object: its solution; around a star the shift is zero *)
Theorem C167_single : forall bh ns st,
  (have st five -> forall how k, In (how, k) [("one_exact_KerrSchild", KerrSchild); ("one_exact_ConfKerrSchild", ConfKerrSchild); ("one_exact_IsoSchild", IsoSchild); ("one_exact_PGSchild", PGSchild)] ->
     runs (initialize_fields bh ns SBH how "XCTS") st
       [("psi", b_psi (bh k BH)); ("alphaPsi", b_alphaPsi (bh k BH)); ("beta_U0", b_beta0 (bh k BH)); ("beta_U1", b_beta1 (bh k BH)); ("beta_U2", b_beta2 (bh k BH))]) /\
  (have st (five ++ six) -> runs (initialize_fields bh ns SNS "TOV" "XCTS") st
     ([("psi", s_psi (ns NS)); ("alphaPsi", s_alphaPsi (ns NS)); ("beta_U0", 0); ("beta_U1", 0); ("beta_U2", 0)] ++ matter_of (ns NS))).
Proof.
  intros bh ns st. split.
  - intros H how k I. apply (ok_runs _ _ _ (run_hole bh k st H)). repeat (destruct I as [I|I]; [injection I as <- <-; reflexivity|]). destruct I.
  - intros H. apply (ok_runs _ _ _ (run_sns ns st H)). reflexivity.
Qed.
Print Assumptions C167_single.
(** two objects: psi and alphaPsi are f1 + f2 - 1, the matter is that of the star the node is in; for a hole and a star the shift is the hole's, for two stars zero *)
Theorem C167_double : forall bh ns st,
  (have st (five ++ six) -> forall how k t, In (how, k, t) [("TOV+KerrSchild", KerrSchild, "ks"); ("TOV+IsoSchild", IsoSchild, "is")] ->
     free st ["psi_" ++ t; "alphaPsi_" ++ t; "psi_tov"; "alphaPsi_tov"] ->
     runs (initialize_fields bh ns BHNS how "XCTS") st
       ([("psi", s_psi (ns NS) + b_psi (bh k BH) + -1); ("alphaPsi", s_alphaPsi (ns NS) + b_alphaPsi (bh k BH) + -1);
         ("beta_U0", b_beta0 (bh k BH)); ("beta_U1", b_beta1 (bh k BH)); ("beta_U2", b_beta2 (bh k BH))] ++ matter_of (ns NS))) /\
  (have st (five ++ six) -> free st ["psi_tov1"; "alphaPsi_tov1"; "psi_tov2"; "alphaPsi_tov2"] ->
     runs (initialize_fields bh ns NSNS "TOV+TOV" "XCTS") st
       ([("psi", s_psi (ns NS1) + s_psi (ns NS2) + -1); ("alphaPsi", s_alphaPsi (ns NS1) + s_alphaPsi (ns NS2) + -1); ("beta_U0", 0); ("beta_U1", 0); ("beta_U2", 0)]
        ++ matter_of (ns NS2) ++ matter_of (ns NS1))).
Proof.
  intros bh ns st. split.
  - intros H how k t I A. destruct I as [I|[I|[]]]; injection I as <- <- <-; [apply (ok_runs _ _ _ (run_bhns bh ns KerrSchild "ks" st (or_introl eq_refl) H A)) | apply (ok_runs _ _ _ (run_bhns bh ns IsoSchild "is" st (or_intror eq_refl) H A))]; reflexivity.
  - intros H A. apply (ok_runs _ _ _ (run_nsns ns st H A)). reflexivity.
Qed.
Print Assumptions C167_double.
(** far away, where the solutions are close to 1, so is the sum *)
Theorem C167_far : forall a b e e', Rabs (a - 1) <= e -> Rabs (b - 1) <= e' -> Rabs (a + b + -1 - 1) <= e + e'.
Proof. intros a b e e' A B. replace (a + b + -1 - 1) with ((a - 1) + (b - 1)) by ring. eapply Rle_trans; [apply Rabs_triang|]. lra. Qed.
Print Assumptions C167_far.
(** For two holes the components of the shift, which vanish far away, are added in the same way, beta = beta1 + beta2 - 1: the first guess of the shift tends to -1 instead of 0, and for the isotropic
    solutions, whose shift is zero, it is -1 everywhere. *)
Theorem C167_shift_refuted : forall bh ns st how k, In (how, k) [("KerrSchild+KerrSchild", KerrSchild); ("IsoSchild+IsoSchild", IsoSchild)] -> have st five ->
  free st ["psi_bh1"; "alphaPsi_bh1"; "beta_bh1_U0"; "beta_bh1_U1"; "beta_bh1_U2"; "psi_bh2"; "alphaPsi_bh2"; "beta_bh2_U0"; "beta_bh2_U1"; "beta_bh2_U2"] ->
  runs (initialize_fields bh ns BHBH how "XCTS") st
    [("psi", b_psi (bh k BH1) + b_psi (bh k BH2) + -1); ("alphaPsi", b_alphaPsi (bh k BH1) + b_alphaPsi (bh k BH2) + -1);
     ("beta_U0", b_beta0 (bh k BH1) + b_beta0 (bh k BH2) + -1); ("beta_U1", b_beta1 (bh k BH1) + b_beta1 (bh k BH2) + -1); ("beta_U2", b_beta2 (bh k BH1) + b_beta2 (bh k BH2) + -1)] /\
  (forall b1 b2 e, Rabs b1 <= e -> Rabs b2 <= e -> Rabs (b1 + b2 + -1 - -1) <= 2 * e) /\ (forall b1 b2, b1 = 0 -> b2 = 0 -> b1 + b2 + -1 = -1).
Proof.
  intros bh ns st how k I H A. split; [apply (ok_runs _ _ _ (run_bhbh bh k st H A)); repeat (destruct I as [I|I]; [injection I as <- <-; reflexivity|]); destruct I|]. split.
  - intros b1 b2 e E1 E2. replace (b1 + b2 + -1 - -1) with (b1 + b2) by ring. eapply Rle_trans; [apply Rabs_triang|]. lra.
  - intros b1 b2 -> ->. ring.
Qed.
Print Assumptions C167_shift_refuted.
(** every other pair of words, and every other system, stops the program before anything is done *)
Theorem C167_abort : forall bh ns sys how what, (low (S_ what) <> low (S_ "XCTS") \/ ~ In (sys, low (S_ how)) (map (fun e => (fst e, low (S_ (snd e))))
    [(SBH, "one_exact_KerrSchild"); (SBH, "one_exact_ConfKerrSchild"); (SBH, "one_exact_IsoSchild"); (SBH, "one_exact_PGSchild"); (BHNS, "TOV+KerrSchild"); (BHNS, "TOV+IsoSchild");
     (BHBH, "KerrSchild+KerrSchild"); (BHBH, "IsoSchild+IsoSchild"); (NSNS, "TOV+TOV"); (SNS, "TOV")])) -> initialize_fields bh ns sys how what = Abort.
Proof.
  intros bh ns sys how what H. assert (S : forall a b, same a b = true <-> low (S_ a) = low (S_ b)).
  { intros a b. unfold same, strcmp_i. destruct (str_eqb_spec (low (S_ a)) (low (S_ b))); split; congruence. }
  unfold initialize_fields. cbv zeta. destruct H as [H|H].
  - replace (same what "XCTS") with false by (symmetry; destruct (same what "XCTS") eqn:E; [apply S in E; congruence|reflexivity]).
    destruct sys; try reflexivity; repeat match goal with |- context [if ?b then _ else _] => destruct b end; reflexivity.
  - destruct sys; try reflexivity;
      repeat match goal with |- context [same how ?c] => let E := fresh "E" in destruct (same how c) eqn:E;
        [exfalso; apply S in E; apply H; rewrite E; cbn [map fst snd In]; repeat (first [left; reflexivity|right])|] end; reflexivity.
Qed.
Print Assumptions C167_abort.
Definition ex_hole : bhsol := mkbh 2 (1/2) 0 0 0.
Definition ex_star : nssol := mkns 3 4 true 5 6 7 8 9 10.
Definition ex_st : fields := fun n => if existsb (String.eqb n) ["psi"; "alphaPsi"; "beta_U0"; "beta_U1"; "beta_U2"; "enthalpy"; "rho0"; "phi"; "W_U0"; "W_U1"; "W_U2"] then Some None else None.
Example C167_ex : have ex_st (five ++ six) /\ free ex_st ["psi_tov"; "alphaPsi_tov"; "psi_is"; "alphaPsi_is"; "psi_bh1"] /\
  exists st', (do a <- initialize_fields (fun _ _ => ex_hole) (fun _ => ex_star) BHNS "tov+isoschild" "xcts"; run a ex_st) = Ok st' /\ st' "psi" = Some (Some (3 + 2 + -1)) /\ st' "W_U1" = Some (Some 9) /\ st' "psi_is" = None.
Proof.
  split; [repeat constructor; cbv; discriminate|]. split; [repeat constructor|]. eexists. split; [reflexivity|]. split; [reflexivity|]. split; reflexivity.
Qed.

(** C168. Free data.  A name stands for the values of all components on all patches; the operations are arbitrary with d(0) = 0, d(KSg) = KSdg, inv(delta) = idelta and inv(unimod g) = unimod_i g.  Whatever the store
    was before, afterwards the inverse metric, the derivatives, the Christoffel symbols, the Ricci tensor and the derivatives of the trace belong to the final metric and trace, and nothing but these fields and adm_Kij changed. *)
Theorem C168_consistent : forall (V : Type) (KSg KSdg delta idelta zero PGK PGtr : V) (inv der blend wK unimod unimod_i : V -> V) (chris KSK KStr : V -> V -> V) (ricci tr_ricci : V -> V -> V -> V),
  der zero = zero -> der KSg = KSdg -> inv delta = idelta -> (forall g, inv (unimod g) = unimod_i g) ->
  forall sys m c r k z st s,
  populate_free_data V KSg KSdg delta idelta zero PGK PGtr inv der blend wK unimod unimod_i chris KSK KStr ricci tr_ricci sys m c r k z st = Ok s ->
  s "igConf" = inv (s "gConf") /\ s "dgConf" = der (s "gConf") /\ s "ChrisConf" = chris (s "igConf") (s "dgConf") /\ s "dChrisConf" = der (s "ChrisConf") /\
  s "RicciConf" = ricci (s "igConf") (s "ChrisConf") (s "dChrisConf") /\ s "trRicciConf" = tr_ricci (s "igConf") (s "ChrisConf") (s "dChrisConf") /\
  s "dtrK" = der (s "trK") /\
  forall n, ~ In n ["gConf"; "igConf"; "dgConf"; "ChrisConf"; "dChrisConf"; "RicciConf"; "trRicciConf"; "trK"; "dtrK"; "adm_Kij"] -> s n = st n.
Proof.
  intros V KSg KSdg delta idelta zero PGK PGtr inv der blend wK unimod unimod_i chris KSK KStr ricci tr_ricci D0 DK ID IU sys m c r k z st s.
  unfold populate_free_data. cbv zeta.
  assert (Key : forall n c, ~ In n ["gConf"; "igConf"; "dgConf"; "ChrisConf"; "dChrisConf"; "RicciConf"; "trRicciConf"; "trK"; "dtrK"; "adm_Kij"] ->
    In c ["gConf"; "igConf"; "dgConf"; "ChrisConf"; "dChrisConf"; "RicciConf"; "trRicciConf"; "trK"; "dtrK"; "adm_Kij"] -> String.eqb n c = false).
  { intros n c' N I. destruct (String.eqb_spec n c'); [subst; tauto|reflexivity]. }
  repeat match goal with |- context [if ?b then _ else _] => destruct b end; intros E; try discriminate; injection E as <-;
    (repeat split; [.. | intros n N;
       unfold metric_KS, metric_flat, metric_ConfKS, metric_blend, christoffel, dchristoffel, conf_ricci, curvature_KS, curvature_flat, curvature_PG, trace_zero, trace_w, upd; cbv zeta;
       rewrite !(Key n) by (assumption || (cbn [In]; repeat (first [left; reflexivity|right]))); reflexivity]);
    unfold metric_KS, metric_flat, metric_ConfKS, metric_blend, christoffel, dchristoffel, conf_ricci, curvature_KS, curvature_flat, curvature_PG, trace_zero, trace_w, upd; cbv zeta;
    cbn [String.eqb Ascii.eqb Bool.eqb]; rewrite ?D0, ?DK, ?ID, ?IU; reflexivity.
Qed.
Print Assumptions C168_consistent.
(** which metric and which trace the words stand for, for which system; all other words and systems stop the program *)
Theorem C168_words : forall (V : Type) (KSg KSdg delta idelta zero PGK PGtr : V) (inv der blend wK unimod unimod_i : V -> V) (chris KSK KStr : V -> V -> V) (ricci tr_ricci : V -> V -> V -> V) sys m c r k z st,
  let tr := KStr (inv KSg) (chris (inv KSg) KSdg) in let same a b := low (S_ a) = low (S_ b) in
  let prog := populate_free_data V KSg KSdg delta idelta zero PGK PGtr inv der blend wK unimod unimod_i chris KSK KStr ricci tr_ricci sys m c r k z st in
  (forall b w g K, In (b, w, g, K) [(SBH, ("KerrSchild", "KerrSchild"), KSg, tr); (SBH, ("IsoSchild", "IsoSchild"), delta, zero); (SBH, ("PGSchild", "PGSchild"), delta, PGtr);
      (SBH, ("ConfKerrSchild", "KerrSchild"), unimod KSg, tr); (BHNS, ("w1*flat+w2*KerrSchild", "w*KerrSchild"), blend KSg, wK tr); (sys, ("flat", "zero"), delta, zero)] ->
    sys = b -> same m (fst w) -> same c (fst w) -> same r (fst w) -> same k (snd w) -> same z "zero" -> exists s, prog = Ok s /\ s "gConf" = g /\ s "trK" = K) /\
  ((forall b w, In (b, w) [(SBH, ("KerrSchild", "KerrSchild")); (SBH, ("IsoSchild", "IsoSchild")); (SBH, ("PGSchild", "PGSchild"));
      (SBH, ("ConfKerrSchild", "KerrSchild")); (BHNS, ("w1*flat+w2*KerrSchild", "w*KerrSchild")); (sys, ("flat", "zero"))] ->
    ~ (sys = b /\ same m (fst w) /\ same c (fst w) /\ same r (fst w) /\ same k (snd w) /\ same z "zero")) -> prog = Abort).
Proof.
  intros V KSg KSdg delta idelta zero PGK PGtr inv der blend wK unimod unimod_i chris KSK KStr ricci tr_ricci sys m c r k z st tr same' prog.
  assert (S : forall a b, same a b = true <-> same' a b).
  { intros a b. unfold same', same, strcmp_i. destruct (str_eqb_spec (low (S_ a)) (low (S_ b))); split; congruence. }
  split.
  - intros b w g K I Eb M C R K' Z.
    assert (Sw : forall a w' x, same' a w' -> same a x = same w' x). { intros a w' x E. unfold same', same in *. unfold strcmp_i. rewrite E. reflexivity. }
    assert (P : prog = populate_free_data V KSg KSdg delta idelta zero PGK PGtr inv der blend wK unimod unimod_i chris KSK KStr ricci tr_ricci sys (fst w) (fst w) (fst w) (snd w) "zero" st).
    { unfold prog, populate_free_data. cbv zeta. repeat rewrite ?(Sw m _ _ M), ?(Sw c _ _ C), ?(Sw r _ _ R), ?(Sw k _ _ K'), ?(Sw z _ _ Z). reflexivity. }
    rewrite P. clear P M C R K' Z. subst tr. clear prog same' S Sw. subst b.
    repeat (destruct I as [I|I]; [first [injection I as Es <- <- <- | injection I as <- <- <-]; try rewrite <- Es; (destruct sys; try discriminate Es); eexists; (split; [reflexivity|]); split; reflexivity|]). destruct I.
  - intros H. unfold prog, populate_free_data. cbv zeta.
    assert (N : forall b x y, In (b, (x, y)) [(SBH, ("KerrSchild", "KerrSchild")); (SBH, ("IsoSchild", "IsoSchild")); (SBH, ("PGSchild", "PGSchild"));
      (SBH, ("ConfKerrSchild", "KerrSchild")); (BHNS, ("w1*flat+w2*KerrSchild", "w*KerrSchild")); (sys, ("flat", "zero"))] ->
      sys = b -> (same m x && same c x && same r x && same k y && same z "zero")%bool = false).
    { intros b x y I E. destruct (same m x && same c x && same r x && same k y && same z "zero")%bool eqn:Q; [|reflexivity]. exfalso.
      rewrite !Bool.andb_true_iff, !S in Q. apply (H b (x, y) I). cbn [fst snd]. tauto. }
    rewrite (N sys "flat" "zero") by (reflexivity || (cbn [In]; repeat (first [left; reflexivity|right]))).
    destruct sys; cbn [andb]; try reflexivity.
    + rewrite (N BHNS "w1*flat+w2*KerrSchild" "w*KerrSchild") by (reflexivity || (cbn [In]; repeat (first [left; reflexivity|right]))). reflexivity.
    + rewrite (N SBH "KerrSchild" "KerrSchild"), (N SBH "IsoSchild" "IsoSchild"), (N SBH "PGSchild" "PGSchild"), (N SBH "ConfKerrSchild" "KerrSchild") by
        (reflexivity || (cbn [In]; repeat (first [left; reflexivity|right]))). reflexivity.
Qed.
Print Assumptions C168_words.
Example C168_ex : exists s, populate_free_data Z 1%Z 0%Z 2%Z 2%Z 0%Z 7%Z 8%Z (fun g => g) (fun _ => 0%Z) (fun g => (g + 10)%Z) (fun t => (2 * t)%Z) (fun g => g) (fun g => g)
    (fun a b => (a + b)%Z) (fun a b => a) (fun a b => (5 * a)%Z) (fun a b d => a) (fun a b d => a)
    BHNS "W1*flat+w2*KerrSchild" "w1*flat+w2*KerrSchild" "w1*flat+w2*KerrSchild" "w*kerrschild" "zero" (fun _ => (-9)%Z) = Ok s /\ s "gConf" = 11%Z /\ s "trK" = 10%Z /\ s "ChrisConf" = 11%Z /\ s "psi" = (-9)%Z /\
  populate_free_data Z 1%Z 0%Z 2%Z 2%Z 0%Z 7%Z 8%Z (fun g => g) (fun _ => 0%Z) (fun g => g) (fun t => t) (fun g => g) (fun g => g) (fun a b => a) (fun a b => a) (fun a b => a) (fun a b d => a) (fun a b d => a)
    NSNS "KerrSchild" "KerrSchild" "KerrSchild" "KerrSchild" "zero" (fun _ => (-9)%Z) = Abort.
Proof. eexists. split; [reflexivity|]. repeat (split; [reflexivity|]). reflexivity. Qed.
