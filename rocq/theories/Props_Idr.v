(** Props_Idr.v - property theorems C116..C118 (the initial data reader). *)
From Verif Require Import Base ParamModel TextModel TextSpec TextProofs CheckpointModel CheckpointSpec CheckpointProofs CheckpointFinal Props_Checkpoint
  IdrModel IdrSpec IdrProofs IdrFinal IdrFiles.

(** C116. The index of a field: the place of its name, case included, in the list of the 22 documented names; any other name stops the program. *)
Theorem C116_field_index :
  (forall n i, find_field_index (Some n) = Ok i <-> nth_error Field_Dictionary i = Some n) /\
  (forall n, find_field_index (Some n) = Abort <-> ~ In n Field_Dictionary) /\
  (forall n n' i, find_field_index (Some n) = Ok i -> find_field_index (Some n') = Ok i -> n = n') /\
  List.length Field_Dictionary = 22%nat /\
  Field_Dictionary = map S_ ["alpha"; "betax"; "betay"; "betaz"; "adm_gxx"; "adm_gxy"; "adm_gxz"; "adm_gyy"; "adm_gyz"; "adm_gzz";
    "adm_Kxx"; "adm_Kxy"; "adm_Kxz"; "adm_Kyy"; "adm_Kyz"; "adm_Kzz"; "grhd_rho"; "grhd_p"; "grhd_epsl"; "grhd_vx"; "grhd_vy"; "grhd_vz"]%string.
Proof.
  refine (conj find_index_ok (conj find_index_abort (conj _ (conj eq_refl eq_refl)))).
  intros n n' i H H'. apply find_index_ok in H. apply find_index_ok in H'. congruence.
Qed.
Print Assumptions C116_field_index.
Example C116_ex1 : find_field_index (Some (S_ "adm_Kxx")) = Ok 10%nat /\ find_field_index (Some (S_ "Alpha")) = Abort.
Proof. split; vm_compute; reflexivity. Qed.

(** Interpolation calls the exporter of the system and option, for the five pairs of the table and no other; the array mode needs a list of
    fields, the three coordinate arrays and a number of points other than 0. *)
Theorem C116_dispatch : forall q,
  (forall e, interpolate_dispatch q = Ok e <->
     exists s o, In (s, o, e) [("BH_NS_binary_initial_data", "generic", BHNS_generic); ("BH_NS_binary_initial_data", "generic_MT_safe", BHNS_MT);
        ("NS_NS_binary_initial_data", "generic", NSNS_generic); ("BH_BH_binary_initial_data", "generic", BHBH_generic);
        ("Single_NS_initial_data", "generic", SNS_generic)]%string /\
       (exists x, q_system q = Some x /\ same_name x (S_ s)) /\ (exists x, q_option q = Some x /\ same_name x (S_ o)) /\
       (e = BHNS_MT \/ q_ifields q <> None /\ q_x q = true /\ q_y q = true /\ q_z q = true /\ q_npoints q <> 0%Z)) /\
  ((exists e, interpolate_dispatch q = Ok e) \/ interpolate_dispatch q = Abort).
Proof. exact (fun q => conj (dispatch_ok q) (dispatch_cases q)). Qed.
Print Assumptions C116_dispatch.
Definition ex_req (s o : string) : request := mkReq (Some (S_ s)) (Some (S_ o)) (Some (S_ "alpha,betax")) true true true 4096%Z.
Example C116_ex2 : interpolate_dispatch (ex_req "ns_ns_BINARY_initial_data" "Generic") = Ok NSNS_generic.
Proof. vm_compute; reflexivity. Qed.
(** the documented "thread safe interpolation for BNS" does not exist *)
Theorem C116_documented_MT_safe_for_NSNS_refuted :
  ~ forall q, q_system q = Some (S_ "NS_NS_binary_initial_data") -> q_option q = Some (S_ "generic_MT_safe") -> exists e, interpolate_dispatch q = Ok e.
Proof. intros H. destruct (H (ex_req "NS_NS_binary_initial_data" "generic_MT_safe") eq_refl eq_refl) as (e & E). vm_compute in E. discriminate. Qed.
Print Assumptions C116_documented_MT_safe_for_NSNS_refuted.

(** A query of a written checkpoint file returns the first parameter, whole, whose name is the given one up to case; null when there is none;
    so reader_init finds the system and get_param_dbl the number. *)
Theorem C116_parameter_query : forall ps gn kind lst patches b,
  Forall storable_par ps -> (Z.of_nat (List.length ps) <= INT_MAX)%Z -> (Z.of_N gn <= INT_MAX)%Z -> word_without kind ->
  checkpoint_bytes ps gn kind lst patches = Ok b ->
  (forall n pre q post, ps = pre ++ q :: post -> same_name (lv (fst q)) n -> Forall (fun r => ~ same_name (lv (fst r)) n) pre ->
     parameter_query n b = Ok (Some q) /\
     (forall strtod v, rv (fst q) = Some v -> get_param_dbl strtod (Some n) b = Ok (strtod v)) /\
     (same_name n (S_ "Project") -> read_system b = Ok (rv (fst q)))) /\
  (forall n, Forall (fun r => ~ same_name (lv (fst r)) n) ps ->
     parameter_query n b = Ok None /\ (forall strtod, get_param_dbl strtod (Some n) b = Abort) /\
     (same_name n (S_ "Project") -> read_system b = Abort)) /\
  (forall strtod, get_param_dbl strtod None b = Ok DBL_MAX).
Proof.
  intros ps gn kind lst patches b H1 H2 H3 H4 E.
  assert (Q : forall n r, first_named n ps r -> parameter_query n b = Ok r).
  { intros n r F. destruct (query_written ps gn kind lst patches b n H1 H2 H3 H4 E) as (r' & Er & F'). rewrite Er. f_equal. eapply first_named_det; eassumption. }
  assert (P : forall n r, same_name n (S_ "Project") -> first_named n ps r -> first_named (S_ "Project") ps r).
  { intros n r S F. unfold same_name in *. destruct r as [q|]; cbn [first_named] in *.
    - destruct F as (pre & post & Ep & S1 & S2). exists pre, post. unfold same_name in *. rewrite <- S. auto.
    - unfold same_name in *. rewrite <- S. exact F. }
  split; [|split].
  - intros n pre q post Ep S F. assert (FN : first_named n ps (Some q)) by (exists pre, post; auto).
    split; [apply Q; exact FN|]. split.
    + intros strtod v Ev. unfold get_param_dbl. rewrite (Q _ _ FN). cbn [obind]. rewrite Ev. reflexivity.
    + intros SP. unfold read_system. rewrite (Q _ _ (P _ _ SP FN)). reflexivity.
  - intros n F. assert (FN : first_named n ps None) by exact F. split; [apply Q; exact FN|]. split.
    + intros strtod. unfold get_param_dbl. rewrite (Q _ _ FN). reflexivity.
    + intros SP. unfold read_system. rewrite (Q _ _ (P _ _ SP FN)). reflexivity.
  - reflexivity.
Qed.
Print Assumptions C116_parameter_query.
Example C116_ex3 : checkpoint_bytes [ex_par1; ex_par2] 3%N (S_ "SplitCubedSpherical(BH+NS)") ex_list ex_saved = Ok ex_bytes /\
  parameter_query (S_ "EOS") ex_bytes = Ok (Some ex_par2) /\ parameter_query (S_ "Project") ex_bytes = Ok None /\
  get_param_dbl (fun _ => 7%N) (Some (S_ "bh_MASS")) ex_bytes = Ok 7%N /\ read_system ex_bytes = Abort.
Proof. repeat split; vm_compute; reflexivity. Qed.
(** a parameter that has only an array has no text: strtod is given a null pointer *)
Theorem C116_array_parameter_refuted :
  ~ forall strtod n b q, parameter_query n b = Ok (Some q) -> exists v, get_param_dbl strtod (Some n) b = Ok v.
Proof.
  intros H. destruct (H (fun _ => 0%N) (S_ "eos") ex_bytes ex_par2) as (v & E); [vm_compute; reflexivity|]. vm_compute in E. discriminate.
Qed.
Print Assumptions C116_array_parameter_refuted.
(** Parameters set by the evolution code are kept, in order, as given; only the pair of two null pointers is refused. *)
Theorem C116_set_param : forall ps l r,
  (l <> None \/ r <> None -> set_param ps l r = Ok (ps ++ [(l, r)])) /\ (l = None -> r = None -> set_param ps l r = Abort).
Proof.
  intros ps l r. split.
  - intros H. unfold set_param. destruct l, r; try reflexivity. destruct H as [H|H]; congruence.
  - intros -> ->. reflexivity.
Qed.
Print Assumptions C116_set_param.
Theorem C116_nameless_param_refuted : ~ forall ps r ps', set_param ps None r = Ok ps' -> False.
Proof. intros H. exact (H [] (Some (S_ "on")) _ eq_refl). Qed.
Print Assumptions C116_nameless_param_refuted.

(** C117. Array mode. *)
Definition ex_X : Type := dbl.
Definition ex_grid : grid ex_X :=
  mkGrid ex_X [[S_ "psi"; S_ "lapse"; S_ "B0"]; [S_ "lapse"; S_ "B0"]] (fun x => let v := fst (fst x) in if (v <? 10)%N then Some (O, v) else if (v <? 20)%N then Some (1%nat, v) else None)
    (fun p k x => (x + 100 * N.of_nat k + 1000 * N.of_nat p)%N).
Definition ex_xs : list point := [(1, 0, 0); (14, 0, 0)]%N.
Definition ex_CM : point := (2, 0, 0)%N.
Definition ex_fin (v : dbl) : bool := negb (v =? 1216)%N.
Theorem C117_arrays : forall dadd isfinite X (g : grid X) a npoints CM xs ns es a',
  npoints = Z.of_nat (List.length xs) /\ (npoints < 2 ^ 31)%Z -> ns <> [] -> es <> [] -> Forall item ns -> Forall item es ->
  export dadd isfinite X g a npoints CM xs (join_with ","%char ns) (join_with ","%char es) = Ok a' ->
  (forall x y z a b c, shifted dadd (a, b, c) (x, y, z) = (dadd x a, dadd y b, dadd z c)) /\
  (* the slots of names that are not asked for stay what they were *)
  (forall i, (forall e f, f < List.length ns -> nth_error es f = Some e -> nth_error Field_Dictionary i <> Some e) -> a' i = a i) /\
  (* the slot of the name e is the field that stands at the same place in the list of fields, at the points, finite *)
  (forall f n e i, nth_error ns f = Some n -> last_among (List.length ns) es e f -> nth_error Field_Dictionary i = Some e ->
     exists vs, a' i = Some vs /\
       Forall2 (fun x v => exists w, g_locate X g (shifted dadd CM x) = Some w /\
          exists l k, nth_error (g_patches X g) (fst w) = Some l /\ first_at l n k /\ v = g_interp X g (fst w) k (snd w)) xs vs /\
       Forall (fun v => isfinite v = true) vs).
Proof. intros until 6. split; [reflexivity|]. eapply export_ok; eassumption. Qed.
Print Assumptions C117_arrays.
Example C117_ex1 : exists a', export N.add ex_fin ex_X ex_grid (fun _ => None) 2%Z ex_CM ex_xs (S_ "lapse,B0") (S_ "alpha,betax,betay") = Ok a' /\
  a' 0%nat = Some [103; 1016]%N /\ a' 1%nat = Some [203; 1116]%N /\ a' 2%nat = None.
Proof. eexists. split; [vm_compute; reflexivity|]. vm_compute. auto. Qed.
(** It succeeds exactly when every point is found, every patch has every field, every used evolution name is documented and every value is finite. *)
Theorem C117_succeeds : forall dadd isfinite X (g : grid X) a npoints CM xs ns es,
  (forall x w, g_locate X g x = Some w -> fst w < List.length (g_patches X g)) ->
  npoints = Z.of_nat (List.length xs) /\ (npoints < 2 ^ 31)%Z -> ns <> [] -> es <> [] -> Forall item ns -> Forall item es ->
  (exists a', export dadd isfinite X g a npoints CM xs (join_with ","%char ns) (join_with ","%char es) = Ok a') <->
  (forall x, In x xs -> g_locate X g (shifted dadd CM x) <> None) /\ (forall l, In l (g_patches X g) -> incl ns l) /\
  (List.length ns <= List.length es)%nat /\ (forall f e, f < List.length ns -> nth_error es f = Some e -> In e Field_Dictionary) /\
  (forall n x v, In n ns -> In x xs -> value_of dadd X g CM n x v -> isfinite v = true).
Proof. exact export_succeeds. Qed.
Print Assumptions C117_succeeds.
Theorem C117_stops : forall dadd isfinite X (g : grid X) a npoints CM xs,
  npoints = Z.of_nat (List.length xs) /\ (npoints < 2 ^ 31)%Z ->
  (forall fields evo x, In x xs -> g_locate X g (shifted dadd CM x) = None -> export dadd isfinite X g a npoints CM xs fields evo = Abort) /\
  (forall ns es, ns <> [] -> es <> [] -> Forall item ns -> Forall item es -> ~ (forall l, In l (g_patches X g) -> incl ns l) ->
     export dadd isfinite X g a npoints CM xs (join_with ","%char ns) (join_with ","%char es) = Abort).
Proof.
  intros dadd isfinite X g a npoints CM xs U. split.
  - intros fields evo x. apply export_abort_point. exact U.
  - intros ns es. apply export_abort_field. exact U.
Qed.
Print Assumptions C117_stops.
Example C117_ex2 : export N.add ex_fin ex_X ex_grid (fun _ => None) 2%Z ex_CM ex_xs (S_ "psi") (S_ "alpha") = Abort /\
  export N.add ex_fin ex_X ex_grid (fun _ => None) 1%Z ex_CM [(30, 0, 0)%N] (S_ "B0") (S_ "alpha") = Abort /\
  export N.add (fun v => negb (v =? 103)%N) ex_X ex_grid (fun _ => None) 2%Z ex_CM ex_xs (S_ "lapse") (S_ "alpha") = Abort /\
  export N.add ex_fin ex_X ex_grid (fun _ => None) 2%Z ex_CM ex_xs (S_ "lapse") (S_ "Alpha") = Abort.
Proof. repeat split; vm_compute; reflexivity. Qed.
(** Fewer evolution names than fields: not an error message but a null pointer in strcmp. *)
Theorem C117_short_names : forall dadd isfinite X (g : grid X) a npoints CM xs ns es,
  (forall x w, g_locate X g x = Some w -> fst w < List.length (g_patches X g)) ->
  npoints = Z.of_nat (List.length xs) /\ (npoints < 2 ^ 31)%Z -> ns <> [] -> es <> [] -> Forall item ns -> Forall item es ->
  (forall x, In x xs -> g_locate X g (shifted dadd CM x) <> None) -> (forall l, In l (g_patches X g) -> incl ns l) ->
  (List.length es < List.length ns)%nat -> incl es Field_Dictionary ->
  (forall n x v, In n ns -> In x xs -> value_of dadd X g CM n x v -> isfinite v = true) ->
  export dadd isfinite X g a npoints CM xs (join_with ","%char ns) (join_with ","%char es) = UB.
Proof. exact export_short_UB. Qed.
Print Assumptions C117_short_names.
Example C117_ex3 : export N.add ex_fin ex_X ex_grid (fun _ => None) 2%Z ex_CM ex_xs (S_ "lapse,B0") (S_ "alpha") = UB /\
  (* a negative number of points *)
  export N.add ex_fin ex_X ex_grid (fun _ => None) (-1)%Z ex_CM ex_xs (S_ "lapse") (S_ "alpha") = UB.
Proof.
  split; [vm_compute; reflexivity|]. unfold export, find_XYZ_n. cbv zeta. replace (Nat.ltb (List.length ex_xs) (Z.to_nat (to_uint (-1)))) with true; [reflexivity|].
  symmetry. apply Nat.ltb_lt. apply Nat2Z.inj_lt. rewrite Z2Nat.id by (vm_compute; discriminate). vm_compute. reflexivity.
Qed.
(** The thread safe call returns the value of the field whose number in id_field_names is the index of the given name; and where both are defined
    it returns what array mode stores.  It has no test for finiteness. *)
Theorem C117_thread_safe : forall dadd isfinite X (g : grid X) names CM,
  (forall e x v, fieldx dadd X g names CM (Some e) x = Ok v <->
     exists i n, nth_error Field_Dictionary i = Some e /\ nth_error names i = Some n /\ value_of dadd X g CM n x v) /\
  (forall a npoints xs ns es a' f n e i p x v,
     npoints = Z.of_nat (List.length xs) /\ (npoints < 2 ^ 31)%Z -> ns <> [] -> es <> [] -> Forall item ns -> Forall item es ->
     export dadd isfinite X g a npoints CM xs (join_with ","%char ns) (join_with ","%char es) = Ok a' ->
     nth_error ns f = Some n -> last_among (List.length ns) es e f -> nth_error Field_Dictionary i = Some e -> nth_error names i = Some n ->
     nth_error xs p = Some x -> fieldx dadd X g names CM (Some e) x = Ok v ->
     exists vs, a' i = Some vs /\ nth_error vs p = Some v).
Proof.
  intros dadd isfinite X g names CM. split; [intros; apply fieldx_ok|].
  intros a npoints xs ns es a' f n e i p x v. exact (modes_agree dadd isfinite X g a npoints CM xs ns es a' names f n e i p x v).
Qed.
Print Assumptions C117_thread_safe.
Example C117_ex4 : fieldx N.add ex_X ex_grid [S_ "lapse"; S_ "B0"] ex_CM (Some (S_ "betax")) (14, 0, 0)%N = Ok 1116%N.
Proof. vm_compute; reflexivity. Qed.
Theorem C117_thread_safe_not_finite_refuted :
  ~ forall isfinite dadd X (g : grid X) names CM e x v, fieldx dadd X g names CM (Some e) x = Ok v -> isfinite v = true.
Proof.
  intros H. assert (K := H (fun _ => false) N.add ex_X ex_grid [S_ "lapse"; S_ "B0"] ex_CM (S_ "betax") (14, 0, 0)%N 1116%N). discriminate K. vm_compute. reflexivity.
Qed.
Print Assumptions C117_thread_safe_not_finite_refuted.

(** C118. A written fields file, read with the macros of the project: the blocks of evolution name and values, in order, nothing else. *)
Theorem C118_fields_file : forall isfinite X (g : grid X), (forall p k x, (g_interp X g p k x < 2 ^ 64)%N) ->
  forall names ws ns es b, ns <> [] -> es <> [] -> Forall item ns -> Forall item es ->
  Forall (fun e => (N.of_nat (S (List.length e)) < 2 ^ 32)%N) es ->
  ~ In NL names -> (List.length names <= 966)%nat ->
  fields_file isfinite X g names ws (join_with ","%char ns) (join_with ","%char es) = Ok b ->
  exists bl, read_fields_file (List.length ns) (List.length ws) b = Ok bl /\ (List.length bl = List.length ns) /\
  forall j n x, nth_error ns j = Some n -> nth_error bl j = Some x ->
    fst x = nth_error es j /\
    Forall2 (fun w v => exists l k, nth_error (g_patches X g) (fst w) = Some l /\ first_at l n k /\ v = g_interp X g (fst w) k (snd w)) ws (snd x) /\
    Forall (fun v => isfinite v = true) (snd x).
Proof. exact fields_file_read. Qed.
Print Assumptions C118_fields_file.
Definition ex_ws : list (nat * ex_X) := [(O, 3%N); (1%nat, 16%N)].
Definition ex_file : bytes := Eval vm_compute in
  match fields_file ex_fin ex_X ex_grid (S_ "alpha,betax") ex_ws (S_ "lapse,B0") (S_ "alpha,betax") with Ok b => b | _ => [] end.
Example C118_ex1 : fields_file ex_fin ex_X ex_grid (S_ "alpha,betax") ex_ws (S_ "lapse,B0") (S_ "alpha,betax") = Ok ex_file /\
  read_fields_file 2 2 ex_file = Ok [(Some (S_ "alpha"), [103; 1016]%N); (Some (S_ "betax"), [203; 1116]%N)].
Proof. split; vm_compute; reflexivity. Qed.
(** one evolution name too few: the file is written, with a block without name *)
Theorem C118_nameless_block_refuted :
  ~ forall isfinite X (g : grid X) ws ns es b, write_fields_file isfinite X g ws (join_with ","%char ns) (join_with ","%char es) = Ok b ->
      (List.length ns <= List.length es)%nat.
Proof.
  intros H. assert (K := H ex_fin ex_X ex_grid ex_ws [S_ "lapse"; S_ "B0"] [S_ "alpha"]).
  destruct (write_fields_file ex_fin ex_X ex_grid ex_ws (join_with ","%char [S_ "lapse"; S_ "B0"]) (join_with ","%char [S_ "alpha"])) as [b| |] eqn:E; vm_compute in E; try discriminate.
  specialize (K b eq_refl). cbn in K. lia.
Qed.
Print Assumptions C118_nameless_block_refuted.
(** A file of coordinates whose first line is at most 997 characters: exactly the points of the file, each with its patch; a coordinate that is
    not finite, a point outside the grid or a wrong title stops the program. *)
Theorem C118_coordinates : forall isfinite X (g : grid X) line xs rest,
  ~ In NL line -> (List.length line <= 997)%nat ->
  (forall t, ~ In NUL t -> (N.of_nat (S (List.length t)) < 2 ^ 32)%N -> t <> HEADER ->
     load_coordinates isfinite X g (line ++ [NL] ++ wP_str (Some t) ++ rest) = Abort) /\
  ((N.of_nat (List.length xs) < 2 ^ 32)%N -> Forall dbl_point xs ->
   (forall t, ~ In NUL t -> (N.of_nat (S (List.length t)) < 2 ^ 32)%N -> t <> FOOTER ->
     load_coordinates isfinite X g (line ++ [NL] ++ wP_str (Some HEADER) ++ wV_uint (N.of_nat (List.length xs)) ++ List.concat (map w_point xs) ++ wP_str (Some t) ++ rest) = Abort) /\
   (forall ws, load_coordinates isfinite X g (coords_file line xs ++ rest) = Ok (xs, ws) <->
      Forall (fin_point isfinite) xs /\ Forall2 (fun x w => g_locate X g x = Some w) xs ws) /\
   (forall r, load_coordinates isfinite X g (coords_file line xs ++ rest) = Ok r -> fst r = xs) /\
   (~ Forall (fin_point isfinite) xs -> load_coordinates isfinite X g (coords_file line xs ++ rest) = Abort) /\
   (forall x, In x xs -> g_locate X g x = None -> load_coordinates isfinite X g (coords_file line xs ++ rest) = Abort)).
Proof.
  intros isfinite X g line xs rest H1 H2. split.
  - intros t T1 T2 T3. apply load_wrong_title; [exact H1|exact H2|split; assumption|exact T3].
  - intros H3 H4. split; [intros t T1 T2 T3; apply load_wrong_footer; [split; [exact H1|split; [exact H2|split; [exact H3|exact H4]]]|split; assumption|exact T3]|].
    apply load_ok. split; [exact H1|split; [exact H2|split; [exact H3|exact H4]]].
Qed.
Print Assumptions C118_coordinates.
Example C118_ex2 : load_coordinates ex_fin ex_X ex_grid (coords_file (S_ "# points") ex_xs) = Ok (ex_xs, [(O, 1%N); (1%nat, 14%N)]).
Proof. vm_compute; reflexivity. Qed.
(** a first line of 998 characters is cut by fgets, and a well-formed file is refused *)
Theorem C118_long_first_line : forall isfinite X (g : grid X) line xs rest,
  ~ In NL line -> List.length line = 998%nat -> load_coordinates isfinite X g (coords_file line xs ++ rest) = Abort.
Proof. exact load_long. Qed.
Print Assumptions C118_long_first_line.
