(** Props_ObsDisp.v - C136-C141: regions of a grid, the pieces a grid is made of, and which patches, faces and formulas an observable stands for. *)
From Coq Require Import Reals Lra.
From Verif Require Import Base TextModel TextSpec RegionModel RegionProofs GenObsDisp ObsDispModel ObsDispSpec ObsDispProofs ObsDispTables ObsDispKomar
  GridModel GridSpec GridProofs GridNames GridCover GridInner ObsReportModel ObsReportProofs.
Open Scope nat_scope.
Open Scope string_scope.

(** a black hole - neutron star grid without radial splits and one with three layers, and a grid of two holes *)
Definition ex_sp : splits := mksplits 0%N 1 1 1 5.
Definition ex_sp3 : splits := mksplits 7%N 1 2 3 4.
Definition ex_u : setup := mksetup (S_ "left") (S_ "left") (S_ "right,excised") (S_ "left,excised") (S_ "right,excised") true.
Definition ex_g : list patch := match fill_patches K_SCS_BHNS ex_sp ex_u with Ok g => g | _ => [] end.
Definition ex_g3 : list patch := match fill_patches K_SCS_BHNS ex_sp3 ex_u with Ok g => g | _ => [] end.

(** C136. A region string selects exactly the patches that carry one of its words as a tag, in grid order, and stops the program if there is none. *)
Theorem C136_select : forall k g reg l, In k [K_SCS_BHNS; K_SCS_NSNS; K_SCS_BHBH; K_SCS_SNS; K_SCS_SBH] ->
  Forall (fun p => p_region p = tags (words p) /\ Forall plain (words p)) g ->
  read_separated_items reg ","%char = Ok l -> l <> [] -> Forall (fun t => In t dictionary) l ->
  collect_patches k g reg = match filter (fun p => existsb (fun t => if in_dec (list_eq_dec ascii_dec) t (words p) then true else false) l) g with [] => Abort | ps => Ok ps end.
Proof. exact (collect_ok words). Qed.
Print Assumptions C136_select.
(** a misspelt region (any word outside the dictionary, "BH_OB" and "central_box" included) stops the program; ".*" is the whole grid *)
Theorem C136_misspelt : forall k g t, In k [K_SCS_BHNS; K_SCS_NSNS; K_SCS_BHBH; K_SCS_SNS; K_SCS_SBH] -> g <> [] ->
  ~ In "("%char t -> ~ In ")"%char t -> t <> [] -> t <> S_ ".*" -> ~ In ","%char t -> ~ In NUL t -> found t (S_ "grid") = false -> List.length t < 900 -> ~ In t dictionary ->
  collect_patches k g t = Abort.
Proof. intros k g t K N A B. exact (misspelt k g t K N (conj A B)). Qed.
Print Assumptions C136_misspelt.
Theorem C136_all : forall k g, g <> [] -> collect_patches k g (S_ ".*") = Ok g.
Proof. exact collect_all. Qed.
Print Assumptions C136_all.
(** every layer of an object carries the object's name, exactly the last one its outer and exactly the first one its inner boundary, and no layer anything else *)
Theorem C136_layers : forall obj nsd2 d2 nm n2, ~ In "("%char obj -> ~ In ")"%char obj -> d2 < nsd2 -> let p := mkpatch nm (cs_region obj nsd2 d2) n2 in
  In obj (words p) /\ (In (obj ++ S_ "_OB")%list (words p) <-> d2 = nsd2 - 1) /\ (In (obj ++ S_ "_IB")%list (words p) <-> d2 = 0) /\
  (forall w, In w (words p) -> w = obj \/ w = (obj ++ S_ "_OB")%list \/ w = (obj ++ S_ "_IB")%list).
Proof. intros obj nsd2 d2 nm n2 A B. exact (layers obj nsd2 d2 nm n2 (conj A B)). Qed.
Print Assumptions C136_layers.
Example C136_ex : List.length ex_g = 29 /\ Forall (fun p => p_region p = tags (words p)) ex_g /\
  (exists l, collect_patches K_SCS_BHNS ex_g (S_ "NS_OB,BH_around_IB") = Ok l /\ List.length l = 12) /\
  collect_patches K_SCS_BHNS ex_g (S_ "BH_OB") = Abort /\ collect_patches K_SCS_BHNS ex_g (S_ "central_box") = Abort /\ collect_patches K_SCS_BHNS ex_g (S_ "NS1") = Abort /\
  (exists l, collect_patches K_SCS_BHNS ex_g3 (S_ "NS") = Ok l /\ List.length l = 42) /\ (exists l, collect_patches K_SCS_BHNS ex_g3 (S_ "NS_OB") = Ok l /\ List.length l = 12).
Proof.
  split; [vm_compute; reflexivity|]. split; [apply Forall_forall; intros p I; vm_compute in I; repeat (destruct I as [<-|I]; [vm_compute; reflexivity|]); destruct I|].
  split; [eexists; split; vm_compute; reflexivity|]. do 3 (split; [vm_compute; reflexivity|]). split; eexists; split; vm_compute; reflexivity.
Qed.

(** C137. What a quantity and a method stand for: exactly the row of the tables of ObsDispSpec.v (regions of the volume part, boundary surfaces and the side of the patch they
    lie on, metric, formula), chosen case-insensitively; every other combination stops the program. *)
Theorem C137_tables : forall k g n1 q m, In k [K_SCS_BHNS; K_SCS_NSNS; K_SCS_BHBH; K_SCS_SNS; K_SCS_SBH] ->
  Forall (fun p => p_region p = tags (words p) /\ Forall plain (words p)) g ->
  let has_prefix (x : string) := strstr_i (Some q) (Some (S_ x)) in
  let by_rows rows := match find (fun r => strcmp_i (Some q) (Some (S_ (r_quantity r))) && strcmp_i (Some m) (Some (S_ (r_method r)))) rows with
    | Some r => if empty_region words g (r_volume r) || empty_region words g (map fst (r_surface r)) then Abort else Ok (Items (items_of_row words g r, r_formula r))
    | None => Abort end in
  obs_calculate k g q m n1 =
    if has_prefix "ADM(P)|" then
      by_rows (filter (fun r => match r_volume r with [] => true | _ => negb (kind_eqb k K_SCS_BHBH) && negb (strcmp_i (Some (S_ (r_quantity r))) (Some (S_ "ADM(P)|BHBH"))) end) (rows_P n1))
    else if has_prefix "ADM(J)|" then by_rows (rows_J n1)
    else if has_prefix "ADM(M)|" then by_rows rows_M
    else if has_prefix "Komar(M)|" then by_rows (rows_K n1)
    else if has_prefix "Irreducible(M)|" then Ok (Other "calc_irreducible_BH_mass")
    else if has_prefix "Baryonic(M)|" then Ok (Other "calc_baryonic_mass")
    else if has_prefix "CM|" then Ok (Other "calc_CM")
    else if has_prefix "Spin|" then Ok (Other "calc_spin")
    else Abort.
Proof.
  intros k g n1 q m K Tg. cbv zeta.
  assert (X : forall rows, (do x <- by_table words g rows q m; Ok (Items x)) =
    match find (fun r => strcmp_i (Some q) (Some (S_ (r_quantity r))) && strcmp_i (Some m) (Some (S_ (r_method r)))) rows with
    | Some r => if empty_region words g (r_volume r) || empty_region words g (map fst (r_surface r)) then Abort else Ok (Items (items_of_row words g r, r_formula r))
    | None => Abort end).
  { intros rows. unfold by_table, row_for. change is with (fun a (b : string) => strcmp_i (Some a) (Some (S_ b))). cbv beta.
    destruct (find _ rows) as [r|]; [|reflexivity]. unfold expected. destruct (_ || _); reflexivity. }
  unfold obs_calculate. cbv zeta. rewrite (P_table words k g n1 K Tg), (J_table words k g n1 K Tg), (M_table words k g n1 K Tg), (K_table words k g n1 K Tg).
  rewrite !X. reflexivity.
Qed.
Print Assumptions C137_tables.
Example C137_ex : Forall (fun p => p_region p = tags (words p)) ex_g /\
  (exists its, obs_calculate K_SCS_BHNS ex_g (S_ "adm(p)|bhns") (S_ "s+v,RASHTI") true = Ok (Items (its, F_obs_ADM_P_Stokes_SV_Rashti)) /\ List.length its = 35 /\
     List.length (filter (fun i => match it_face i with Some First => true | _ => false end) its) = 6) /\
  obs_calculate K_SCS_BHNS ex_g (S_ "ADM(P)|BHNS") (S_ "S+V,rasti") true = Abort /\ obs_calculate K_SCS_BHNS ex_g (S_ "ADM(P)|NS1") (S_ "S_obj,default") true = Abort.
Proof.
  split; [exact (proj1 (proj2 C136_ex))|]. split; [eexists; split; [vm_compute; reflexivity|split; vm_compute; reflexivity]|]. split; vm_compute; reflexivity.
Qed.

(** C138. The patches of a split cubed spherical grid are exactly the pieces of the inventory of GridSpec.v, for all numbers of splits and all settings; the names are unique;
    and the patches marked as inner boundary are exactly the first layers around the excised holes. *)
Theorem C138_inventory : forall k sp u, In k [K_SCS_BHNS; K_SCS_NSNS; K_SCS_BHBH; K_SCS_SNS; K_SCS_SBH] ->
  let excised s := strstr_i (Some s) (Some (S_ "excised")) in let filled s := strstr_i (Some s) (Some (S_ "filled")) in
  let cmp s (x : string) := strcmp_i (Some s) (Some (S_ x)) in let sub s (x : string) := strstr_i (Some s) (Some (S_ x)) in
  let one := if excised (set_BH u) then Ok false else if filled (set_BH u) then Ok true else Abort in
  let two := if excised (set_BH1 u) && excised (set_BH2 u) then Ok false else if filled (set_BH1 u) && filled (set_BH2 u) then Ok true else Abort in
  let built first (f : outcome bool) := do b <- f; Ok (flat_map (seg_patches sp) (inventory k first b (outer u))) in
  fill_patches k sp u = match k with
    | K_SCS_BHNS => built (cmp (set_NS u) "left") one
    | K_SCS_NSNS => built (cmp (set_NS1 u) "left") (Ok false)
    | K_SCS_BHBH => built (sub (set_BH1 u) "left") two
    | K_SCS_SBH => if sub (set_BH u) "center" then built true one else Abort
    | K_SCS_SNS => if cmp (set_NS u) "center" then built true (Ok false) else Abort
    | _ => Abort end.
Proof.
  intros k sp u K. cbv zeta. rewrite (fill_inventory k sp u K). unfold scs in K. cbn [In] in K.
  destruct K as [<-|[<-|[<-|[<-|[<-|[]]]]]]; reflexivity.
Qed.
Print Assumptions C138_inventory.
Theorem C138_names : forall k sp u g, In k [K_SCS_BHNS; K_SCS_NSNS; K_SCS_BHBH; K_SCS_SNS; K_SCS_SBH] -> fill_patches k sp u = Ok g -> NoDup (map p_name g).
Proof. exact names_unique. Qed.
Print Assumptions C138_names.
Theorem C138_inner : forall k sp u g, In k [K_SCS_BHNS; K_SCS_NSNS; K_SCS_BHBH; K_SCS_SNS; K_SCS_SBH] -> fill_patches k sp u = Ok g -> 0 < na sp -> 0 < nb sp -> 0 < nc sp ->
  exists f l, match k with K_SCS_BHNS | K_SCS_SBH => bh_filled (set_BH u) | K_SCS_BHBH => bhbh_filled u | _ => Ok false end = Ok f /\ inner_boundary k u g = Ok l /\
    forall p, In p l <-> In p g /\ f = false /\
      exists o, In o (match k with K_SCS_BHNS | K_SCS_SBH => ["BH"] | K_SCS_BHBH => ["BH1"; "BH2"] | _ => [] end) /\ In (S_ o ++ S_ "_around_IB")%list (words p).
Proof. exact inner_marked. Qed.
Print Assumptions C138_inner.
(** every patch of a grid that was built satisfies the tag hypothesis of C136 and C137 *)
Theorem C138_tagged : forall k sp u g, In k [K_SCS_BHNS; K_SCS_NSNS; K_SCS_BHBH; K_SCS_SNS; K_SCS_SBH] -> fill_patches k sp u = Ok g ->
  Forall (fun p => p_region p = tags (words p) /\ Forall plain (words p)) g.
Proof. intros k sp u g K E. destruct (grid_tagged k sp u g K E) as (f & _ & _ & _ & T & _). exact T. Qed.
Print Assumptions C138_tagged.
(** grid_kind accepts exactly the documented names, in any case, each for its own kind *)
Theorem C138_kinds : forall s k, set_grid_kind s = Ok k <-> exists n, In (n, k) [("SplitCubedSpherical(BH+NS)", K_SCS_BHNS); ("SplitCubedSpherical(NS+NS)", K_SCS_NSNS);
    ("SplitCubedSpherical(BH+BH)", K_SCS_BHBH); ("SplitCubedSpherical(NS)", K_SCS_SNS); ("SplitCubedSpherical(BH)", K_SCS_SBH); ("CubedSpherical(BH+NS)", K_CS_BHNS);
    ("CubedSpherical(NS+NS)", K_CS_NSNS); ("box", K_Box)] /\ strcmp_i (Some s) (Some (S_ n)) = true.
Proof. exact kind_iff. Qed.
Print Assumptions C138_kinds.
Example C138_ex : (exists g, fill_patches K_SCS_BHNS ex_sp3 ex_u = Ok g /\ List.length g = 174 /\
    option_map p_name (nth_error g 6) = Some (S_ "grid7_left_NS_up_X0Y0Z0") /\ option_map p_region (nth_error g 18) = Some (S_ "(NS)(NS_OB)")) /\
  (exists l, inner_boundary K_SCS_BHNS ex_u ex_g3 = Ok l /\ List.length l = 12) /\
  fill_patches K_SCS_SNS ex_sp ex_u = Abort /\ set_grid_kind (S_ "splitCUBEDspherical(bh)") = Ok K_SCS_SBH /\ set_grid_kind (S_ "box2") = Abort.
Proof. split; [eexists; split; [vm_compute; reflexivity|]; repeat split; vm_compute; reflexivity|]. split; [eexists; split; vm_compute; reflexivity|]. repeat split; vm_compute; reflexivity. Qed.

(** C139. Surface + volume methods cover the grid: on every grid that is built, the volume patches are exactly the patches outside the enclosed objects, each once, and the
    surfaces are exactly the inner faces of the first layer around the enclosed objects. *)
Theorem C139_coverage : forall k q m enc sp u g n1, In (k, q, m, enc) [
    (K_SCS_BHNS, "ADM(P)|BHNS", "S+V,Rashti", ["BH"]); (K_SCS_BHNS, "ADM(P)|BHNS", "S+V,constraint", ["NS"; "BH"]); (K_SCS_BHNS, "ADM(J)|BHNS", "S+V,constraint", ["NS"; "BH"]);
    (K_SCS_BHNS, "ADM(M)|BHNS", "S+V,default", ["BH"]); (K_SCS_BHNS, "ADM(M)|BHNS", "S+V,conformal", ["BH"]);
    (K_SCS_BHBH, "ADM(J)|BHBH", "S+V,constraint", ["BH1"; "BH2"]); (K_SCS_BHBH, "ADM(M)|BHBH", "S+V,default", ["BH1"; "BH2"]); (K_SCS_BHBH, "ADM(M)|BHBH", "S+V,conformal", ["BH1"; "BH2"]);
    (K_SCS_NSNS, "ADM(P)|NSNS", "S+V,Rashti", []); (K_SCS_NSNS, "ADM(J)|NSNS", "S+V,constraint", ["NS1"; "NS2"]);
    (K_SCS_NSNS, "ADM(M)|NSNS", "S+V,default", []); (K_SCS_NSNS, "ADM(M)|NSNS", "S+V,conformal", []);
    (K_SCS_SNS, "ADM(P)|SNS", "S+V,Rashti", []); (K_SCS_SNS, "ADM(J)|SNS", "S+V,constraint", ["NS"]); (K_SCS_SNS, "ADM(M)|SNS", "S+V,default", []); (K_SCS_SNS, "ADM(M)|SNS", "S+V,conformal", []);
    (K_SCS_SBH, "ADM(P)|SBH", "S+V,Rashti", ["BH"]); (K_SCS_SBH, "ADM(M)|SBH", "S+V,default", ["BH"]) ] ->
  fill_patches k sp u = Ok g -> 0 < na sp -> 0 < nb sp -> 0 < nc sp ->
  exists its f mt, obs_calculate k g (S_ q) (S_ m) n1 = Ok (Items (its, f)) /\
    map it_patch (filter (fun i => match it_face i with None => true | Some _ => false end) its) = filter (fun p => negb (memb (owner p) (map S_ enc))) g /\
    filter (fun i => negb (match it_face i with None => true | Some _ => false end)) its
      = map (fun p => mkitem p (Some First) mt (Some mt)) (filter (fun p => existsb (fun o => memb (S_ o ++ S_ "_around_IB")%list (words p)) enc) g).
Proof. intros k q m enc sp u g n1 I. exact (cover_gen k q m enc enc sp u g n1 (or_introl (conj I eq_refl))). Qed.
Print Assumptions C139_coverage.
Example C139_ex : exists g, fill_patches K_SCS_BHNS ex_sp3 ex_u = Ok g /\ List.length (filter (fun p => negb (memb (owner p) (map S_ ["BH"]))) g) = 174 /\
  List.length (filter (fun p => negb (memb (owner p) (map S_ ["NS"; "BH"]))) g) = 132.
Proof. eexists. split; [vm_compute; reflexivity|]. split; vm_compute; reflexivity. Qed.
(** ... except the momentum of stars with the constraint method, where the stars' surfaces are added although their interior is in the volume already ... *)
Theorem C139_coverage_refuted : forall k q m enc sp u g n1, In (k, q, m, enc) [ (K_SCS_NSNS, "ADM(P)|NSNS", "S+V,constraint", ["NS1"; "NS2"]); (K_SCS_SNS, "ADM(P)|SNS", "S+V,constraint", ["NS"]) ] ->
  fill_patches k sp u = Ok g -> 0 < na sp -> 0 < nb sp -> 0 < nc sp ->
  exists its f mt, obs_calculate k g (S_ q) (S_ m) n1 = Ok (Items (its, f)) /\
    map it_patch (filter (fun i => match it_face i with None => true | Some _ => false end) its) = g /\
    filter (fun i => negb (match it_face i with None => true | Some _ => false end)) its
      = map (fun p => mkitem p (Some First) mt (Some mt)) (filter (fun p => existsb (fun o => memb (S_ o ++ S_ "_around_IB")%list (words p)) enc) g).
Proof.
  intros k q m enc sp u g n1 I E H0 H1 H2. destruct (cover_gen k q m [] enc sp u g n1 (or_intror (conj I eq_refl)) E H0 H1 H2) as (its & f & mt & A & B & C).
  exists its, f, mt. split; [exact A|]. split; [|exact C]. change (map it_patch (filter is_volume its) = g). rewrite B. apply filter_all. reflexivity.
Qed.
Print Assumptions C139_coverage_refuted.
(** ... and the momentum of two black holes, where every method with a volume part stops the program on every grid. *)
Theorem C139_bhbh_refuted : forall sp u g n1 m, fill_patches K_SCS_BHBH sp u = Ok g ->
  In m ["S+V,Rashti"; "S+V,constraint"] \/ (m = "S+V,Ossokine" /\ n1 = false) -> obs_calculate K_SCS_BHBH g (S_ "ADM(P)|BHBH") (S_ m) n1 = Abort.
Proof.
  intros sp u g n1 m E H. assert (K : scs K_SCS_BHBH) by (cbn; tauto). destruct (grid_tagged _ sp u g K E) as (f & _ & _ & _ & T & _). exact (BHBH_P_stops _ g n1 m K T H).
Qed.
Print Assumptions C139_bhbh_refuted.
Example C139_bhbh_ex : exists g, fill_patches K_SCS_BHBH ex_sp ex_u = Ok g /\ List.length g = 22 /\ obs_calculate K_SCS_BHBH g (S_ "ADM(P)|BHBH") (S_ "S+V,Rashti") true = Abort.
Proof. eexists. split; [vm_compute; reflexivity|]. split; vm_compute; reflexivity. Qed.

(** C140. The reported number: whenever a quantity and a method are accepted, the result is the weighted sum of all surface and all volume integrals of the items - never an
    abort, never a missing integrand - and every surface is integrated with a normal made for the metric of its area element. *)
Open Scope R_scope.
Theorem C140_report : forall k g n1 q m its f S V, In k [K_SCS_BHNS; K_SCS_NSNS; K_SCS_BHBH; K_SCS_SNS; K_SCS_SBH] ->
  Forall (fun p => p_region p = tags (words p) /\ Forall plain (words p)) g -> obs_calculate k g q m n1 = Ok (Items (its, f)) ->
  let surface i := match it_face i with Some _ => true | None => false end in
  let sum l := fold_right Rplus 0 l in
  report f S V its = Ok (
    (match f with F_obs_ADM_mass_SV_conformal => 1 | F_obs_ADM_mass_SV_isotropic => - / (2 * PI) | F_obs_ADM_mass_S2 => / (16 * PI) | F_obs_Komar_mass => / (4 * PI) | NoFormula => 0 | _ => / (8 * PI) end)
      * sum (map S (filter surface its)) +
    (match f with F_obs_ADM_mass_SV_conformal | F_obs_Komar_mass => 1 | F_obs_ADM_mass_SV_isotropic => - / (2 * PI) | F_obs_ADM_P_Stokes_SV_Ossokine => - / (8 * PI) | F_obs_ADM_mass_S2 | NoFormula => 0 | _ => / (8 * PI) end)
      * sum (map V (filter (fun i => negb (surface i)) its))) /\
  (forall i, In i its -> match it_face i with Some _ => it_normal i = Some (it_metric i) | None => it_normal i = None end).
Proof.
  intros k g n1 q m its f S V K Tg H. cbv zeta. split; [|exact (normals words k g n1 q m its f K Tg H)].
  rewrite (reported words k g n1 q m its f S V K Tg H). f_equal. destruct f; reflexivity.
Qed.
Print Assumptions C140_report.
Example C140_ex : exists its, obs_calculate K_SCS_BHNS ex_g (S_ "ADM(M)|BHNS") (S_ "S+V,default") true = Ok (Items (its, F_obs_ADM_mass_SV_isotropic)) /\
  List.length its = 35%nat /\ report F_obs_ADM_mass_SV_isotropic (fun _ => 1) (fun _ => 2) its = Ok (- 32 / PI).
Proof.
  eexists. split; [vm_compute; reflexivity|]. split; [vm_compute; reflexivity|].
  cbv -[Rplus Rmult Rdiv Rinv Ropp PI IZR]. f_equal. pose proof PI_RGT_0. field. lra.
Qed.

(** C141. Spin and irreducible mass: S = J - R x P, independent of the reference point of J and R; the centre of a hole is the area average of its surface relative to the centre
    of mass; the irreducible mass is the non-negative root of A = 16 pi M^2. *)
Theorem C141_spin :
  (forall J0 J1 J2 R0 R1 R2 P0 P1 P2, spin_JRP (J0, J1, J2) (R0, R1, R2) (P0, P1, P2)
     = (J0 - (R1 * P2 - R2 * P1), J1 - (R2 * P0 - R0 * P2), J2 - (R0 * P1 - R1 * P0))) /\
  (forall J Rc P d, spin_JRP (vsub J (cross3 d P)) (vsub Rc d) P = spin_JRP J Rc P) /\
  (forall xc yc zc ps, let A := all_int (fun _ => 1) ps in A <> 0 ->
     Rc_BH (xc, yc, zc) (A_AH ps) ps = (all_int nx ps / A - xc, all_int ny ps / A - yc, all_int nz ps / A - zc)) /\
  (forall ps, 0 <= all_int (fun _ => 1) ps -> 0 <= irreducible_mass ps /\ all_int (fun _ => 1) ps = 16 * PI * (irreducible_mass ps) ^ 2).
Proof.
  split; [intros; rewrite spin_value; unfold vsub, cross3; reflexivity|]. split; [exact spin_origin|]. split.
  - intros xc yc zc ps A HA. exact (Rc_value (xc, yc, zc) ps HA).
  - intros ps H. destruct (irreducible_value ps H) as [X Y]. split; [exact X|symmetry; exact Y].
Qed.
Print Assumptions C141_spin.
Example C141_ex : spin_JRP (1, 2, 3) (0, 1, 0) (0, 0, 5) = (-4, 2, 3) /\ all_int (fun _ => 1) [[(1, 2, 3, PI * 32); (0, 0, 1, PI * 32)]] = 64 * PI /\
  irreducible_mass [[(1, 2, 3, PI * 32); (0, 0, 1, PI * 32)]] = 2.
Proof.
  split; [unfold spin_JRP; repeat apply f_equal2; ring|]. assert (E : all_int (fun _ => 1) [[(1, 2, 3, PI * 32); (0, 0, 1, PI * 32)]] = 64 * PI) by (cbn; ring).
  split; [exact E|]. unfold irreducible_mass, A_AH. rewrite E. replace (64 * PI / (16 * PI)) with (2 * 2) by (field; apply PI_neq0). apply sqrt_square. lra.
Qed.
