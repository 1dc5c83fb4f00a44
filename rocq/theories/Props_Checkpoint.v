(** Props_Checkpoint.v - property theorems C18..C22 (checkpoint file). *)
From Verif Require Import Base ParamModel ParamSpec ParamProofs ParamFinal TextModel CheckpointModel CheckpointSpec CheckpointProofs
  CheckpointFinal CheckpointModify.

(** a concrete run used by the examples *)
Definition ex_par1 : cpar := (mkPar (S_ "BH_mass") (Some (S_ "1.5")) (Some (S_ "1.5->2.5")) None 4609434218613702656%N true true, 0%N).
Definition ex_par2 : cpar := (mkPar (S_ "eos") None None (Some [7%N; 0%N]) 0%N false false, 2%N).
Definition ex_fld (n : string) (v : option (list dbl)) : fld := mkFld (S_ n) v.
Definition ex_saved : list (N * list fld) :=
  [(2%N, [ex_fld "psi" (Some [1%N; 2%N]); ex_fld "psi2" (Some [3%N; 4%N]); ex_fld "alpha" None])].
Definition ex_target : list (list fld) :=
  [[ex_fld "alpha" (Some [9%N]); ex_fld "psi" None; ex_fld "psi2" (Some [8%N])]].
Definition ex_list : str := S_ "alpha, psi,eta".
Definition ex_bytes : bytes := Eval vm_compute in
  match checkpoint_bytes [ex_par1; ex_par2] 3%N (S_ "SplitCubedSpherical(BH+NS)") ex_list ex_saved with Ok b => b | _ => [] end.

(** C18. Everything that was written is read back: header, and the parameters entry by entry, bit for bit. *)
Theorem C18_parameters_round_trip :
  (forall ps, Forall storable_par ps ->
     exists b, write_parameters ps = Ok b /\
     forall rest, read_parameters (List.length ps) (b ++ rest) = Ok (ps, rest)) /\
  (forall ps gn kind lst patches,
     Forall storable_par ps -> (Z.of_nat (List.length ps) <= INT_MAX)%Z -> (Z.of_N gn <= INT_MAX)%Z -> word_without kind ->
     Forall storable_patch patches -> Forall (fun q => ~ In [] (map f_name (snd q))) patches ->
     exists b, checkpoint_bytes ps gn kind lst patches = Ok b /\
     exists r, (do h <- read_header b; do p <- read_parameters (Z.to_nat (h_npar (fst h))) (snd h); Ok (fst h, p)) =
       Ok (mkHeader (Z.of_nat (List.length ps)) (Z.of_N gn) (Some kind), (ps, r))).
Proof. exact (conj params_round_trip whole_params_round_trip). Qed.
Print Assumptions C18_parameters_round_trip.
Example C18_ex : Forall storable_par [ex_par1; ex_par2] /\ word_without (S_ "SplitCubedSpherical(BH+NS)") /\
  checkpoint_bytes [ex_par1; ex_par2] 3%N (S_ "SplitCubedSpherical(BH+NS)") ex_list ex_saved = Ok ex_bytes /\
  match read_checkpoint ex_bytes ex_target with Ok (_, ps, _, _) => ps = [ex_par1; ex_par2] | _ => False end.
Proof.
  split; [|split; [|split; vm_compute; reflexivity]].
  - repeat constructor; try (apply noNUL_dec; reflexivity); try discriminate; vm_compute; reflexivity.
  - repeat split; try discriminate; try (apply nospace_dec; reflexivity); intros a b E;
      assert (C := contains_b_app a (S_ "number_of_parameters") b); assert (D := contains_b_app a (S_ "grid_number") b);
      (rewrite <- E in C; vm_compute in C; discriminate) || (rewrite <- E in D; vm_compute in D; discriminate).
Qed.

(** C19. Reading the field section restores, in every patch, the saved fields and leaves every other field alone.
    [is_word_of] and [restored] are in CheckpointSpec.v. *)
Theorem C19_fields_round_trip : forall ps gn kind lst patches targets,
  Forall storable_par ps -> (Z.of_nat (List.length ps) <= INT_MAX)%Z -> (Z.of_N gn <= INT_MAX)%Z -> word_without kind ->
  Forall storable_patch patches -> Forall (fun q => ~ In [] (map f_name (snd q))) patches ->
  Forall2 (receives lst) (map snd patches) targets ->
  exists b h after, checkpoint_bytes ps gn kind lst patches = Ok b /\
    read_checkpoint b targets = Ok (h, ps, after, end_mark) /\
    List.length after = List.length targets /\
    Forall2 (fun saved tt => Forall2 (restored lst saved) (fst tt) (snd tt)) (map snd patches) (combine targets after).
Proof. exact whole_fields_round_trip. Qed.
Print Assumptions C19_fields_round_trip.
Example C19_ex : Forall storable_patch ex_saved /\ Forall (fun q => ~ In [] (map f_name (snd q))) ex_saved /\
  Forall2 (receives ex_list) (map snd ex_saved) ex_target /\
  match read_checkpoint ex_bytes ex_target with
  | Ok (_, _, after, _) => after = [[ex_fld "alpha" (Some [9%N]); ex_fld "psi" (Some [1%N; 2%N]); ex_fld "psi2" (Some [8%N])]]
  | _ => False end.
Proof.
  split; [|split; [|split; [|vm_compute; reflexivity]]].
  - repeat constructor; cbn; try (apply noNUL_dec; reflexivity); try discriminate; try (vm_compute; reflexivity);
      try (intros K; cbn in K; vm_compute in K; intuition discriminate).
  - repeat constructor. intros K. vm_compute in K. intuition discriminate.
  - constructor; [|constructor]. split; [repeat constructor; intros K; vm_compute in K; intuition discriminate|].
    intros n v H _. cbn [ex_saved map snd] in H. repeat destruct H as [H|H]; try (injection H as <- _; vm_compute; tauto); try discriminate; destruct H.
Qed.

(** C20. Whatever the history of checkpoint calls, contents, crash points and mv failures: checkpoint.dat is what it was or a
    complete content; precisely, the one of the last call that ran to its end. A left-over temporary file makes every later
    call stop without touching anything. And a checkpoint.dat that was ever written by a completed call is accepted and
    readable (C18, C19, C22). *)
Theorem C20_crash_atomic :
  (forall h d, dat (fold_left run_attempt h d) = dat d \/
     exists a, In a h /\ completes a = true /\ dat (fold_left run_attempt h d) = Some (a_content a)) /\
  (forall h d, temp d = None -> dat (fold_left run_attempt h d) = expected_dat (dat d) h) /\
  (forall h d b, temp d = Some b -> fold_left run_attempt h d = d) /\
  (forall d a, temp d = None -> completes a = false -> a_steps a <> 0 ->
     dat (run_attempt d a) = dat d /\ temp (run_attempt d a) <> None) /\
  (forall h d c, (forall a, In a h -> exists ps gn kind lst patches, checkpoint_bytes ps gn kind lst patches = Ok (a_content a)) ->
     dat d = None -> dat (fold_left run_attempt h d) = Some c -> is_checkpoint_sound c = Ok true).
Proof. exact (conj crash_atomic (conj crash_expected (conj blocked_history (conj interrupted_blocks dat_always_sound)))). Qed.
Print Assumptions C20_crash_atomic.
Example C20_ex : let a1 := mkAttempt (S_ "one") true 5 in let a2 := mkAttempt (S_ "two") true 3 in let a3 := mkAttempt (S_ "three") true 100 in
  fold_left run_attempt [a1; a2; a3] (mkDisk None None) = mkDisk (Some (S_ "one")) (Some (S_ "tw")).
Proof. reflexivity. Qed.

(** C21. [d0] is the database of the new parameter file, [d] the one read from the checkpoint. *)
Theorem C21_modify_overrides_partial :
  (forall strtod d0 d d' n,
    Inv d0 -> Inv d -> proper_modify d0 -> get_parameter d0 (S_ "modify:" ++ total_name) = None ->
    lower n <> lower total_name -> incorporate d (modified_pars d0) = Ok d' ->
    (forall q, get_parameter d0 (S_ "modify:" ++ n) = Some q ->
       (forall p, get_parameter d n = Some p ->
          exists p', get_parameter d' n = Some p' /\ rv p' = rv q /\ rv_ip p' = rv_ip q /\ iterative p' = iterative q /\
          forall v, rv q = Some v -> exists d2, get_D strtod d' n true = Ok (strtod v, d2)) /\
       (get_parameter d n = None ->
          exists p', get_parameter d' n = Some p' /\ add_parameter None n (rv q) = Ok (Some [p']))) /\
    (get_parameter d0 (S_ "modify:" ++ n) = None -> get_parameter d' n = get_parameter d n)) /\
  (forall d ms m n p a, Inv d -> NoDup (map key ms) -> In m ms -> key m = lower n -> lower n <> lower total_name ->
    get_parameter d n = Some p -> rv_array p = Some a -> incorporate d ms = Abort).
Proof. exact (conj restart_modify modify_array_aborts). Qed.
Print Assumptions C21_modify_overrides_partial.

Definition st0 : str -> dbl := fun _ => 0%N.
Definition fm0 : dbl -> str := fun _ => [].
Definition db_of (h : list op) : db := match run st0 fm0 None h with Ok (d, _) => d | _ => None end.
Definition ex_d0 : db := Eval vm_compute in db_of [Psets (S_ "modify:BH_mass") (Some (S_ "3->4")); Psets (S_ "x") (Some (S_ "1"))].
Definition ex_d : db := Eval vm_compute in db_of [Psets (S_ "bh_mass") (Some (S_ "1")); Psets (S_ "total_iterations_ip") (Some (S_ "7"))].
Example C21_ex : Inv ex_d0 /\ Inv ex_d /\ proper_modify ex_d0 /\ get_parameter ex_d0 (S_ "modify:" ++ total_name) = None /\
  lower (S_ "BH_mass") <> lower total_name /\
  match incorporate ex_d (modified_pars ex_d0) with
  | Ok d' => get_S d' (S_ "BH_mass") true = Ok (Some (S_ "3")) /\ get_S d' total_name true = Ok (Some (S_ "2"))
  | _ => False end.
Proof.
  split; [|split; [|split; [|split; [|split]]]].
  - apply (Inv_run st0 fm0 [Psets (S_ "modify:BH_mass") (Some (S_ "3->4")); Psets (S_ "x") (Some (S_ "1"))] None _ [ONone; ONone]); [vm_compute; reflexivity|apply Inv_None].
  - apply (Inv_run st0 fm0 [Psets (S_ "bh_mass") (Some (S_ "1")); Psets (S_ "total_iterations_ip") (Some (S_ "7"))] None _ [ONone; ONone]); [vm_compute; reflexivity|apply Inv_None].
  - intros p Hp M. cbn [ex_d0 pars] in Hp. repeat destruct Hp as [Hp|Hp]; subst.
    + exists (S_ "BH_mass"). vm_compute. reflexivity.
    + vm_compute in M. discriminate.
    + destruct Hp.
  - vm_compute. reflexivity.
  - vm_compute. discriminate.
  - vm_compute. split; reflexivity.
Qed.
(** the part that fails: a new iterative parameter given as modify:name keeps its first value only *)
Theorem C21_new_iterative_refuted : exists d0 d d', 
  get_S d0 (S_ "modify:tol") true = Ok (Some (S_ "3")) /\ count_ip (match get_parameter d0 (S_ "modify:tol") with Some p => p | None => new_par [] end) = Ok 1 /\
  get_parameter d (S_ "tol") = None /\ incorporate d (modified_pars d0) = Ok d' /\
  (forall n d'', update_iterative st0 d' n = Ok d'' -> get_S d'' (S_ "tol") true = Ok (Some (S_ "3"))).
Proof.
  exists (Some [mkPar (S_ "modify:tol") (Some (S_ "3")) (Some (S_ "3->4")) None 0%N false true]), (Some []).
  eexists. split; [reflexivity|]. split; [reflexivity|]. split; [reflexivity|]. split; [vm_compute; reflexivity|].
  intros n d'' H. vm_compute in H. injection H as <-. reflexivity.
Qed.
Print Assumptions C21_new_iterative_refuted.

(** C22. *)
Theorem C22_truncated_rejected_partial :
  (* the test is exactly "ends with the mark", on every file *)
  (forall f, is_checkpoint_sound f = Ok true <-> ends_with f (END_MSG ++ [NUL])) /\
  (* every completely written file passes *)
  (forall ps gn kind lst patches b, checkpoint_bytes ps gn kind lst patches = Ok b -> is_checkpoint_sound b = Ok true) /\
  (* a cut anywhere is accepted only if the text of the mark occurs in the data, ending at the cut *)
  (forall b k, is_checkpoint_sound (firstn k b) = Ok true ->
     exists x y, b = x ++ END_MSG ++ [NUL] ++ y /\ List.length (x ++ END_MSG ++ [NUL]) = Nat.min k (List.length b)) /\
  (* a cut of 1..32 bytes of any file with the final section is detected without undefined behaviour *)
  (forall x k, 1 <= k <= 32 ->
     is_checkpoint_sound (firstn (List.length (x ++ end_mark) - k) (x ++ end_mark)) = Ok false \/
     is_checkpoint_sound (firstn (List.length (x ++ end_mark) - k) (x ++ end_mark)) = Abort).
Proof. exact (conj sound_ends (conj written_sound (conj cut_needs_mark cut_rejected))). Qed.
Print Assumptions C22_truncated_rejected_partial.
Example C22_ex : is_checkpoint_sound ex_bytes = Ok true /\ is_checkpoint_sound (firstn (List.length ex_bytes - 1) ex_bytes) = Ok false.
Proof. split; vm_compute; reflexivity. Qed.
(** the part that fails: a file cut inside its text header makes strstr read uninitialised memory, and so may be accepted *)
Theorem C22_uninitialised_refuted : exists b k, checkpoint_bytes [ex_par1; ex_par2] 3%N (S_ "SplitCubedSpherical(BH+NS)") ex_list ex_saved = Ok b /\
  k < List.length b /\ is_checkpoint_sound (firstn k b) = UB.
Proof. exists ex_bytes, 40. split; [vm_compute; reflexivity|]. split; [apply Nat.ltb_lt; vm_compute; reflexivity|vm_compute; reflexivity]. Qed.
Print Assumptions C22_uninitialised_refuted.
