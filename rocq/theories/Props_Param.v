(** Props_Param.v - property theorems C01..C12 (parameter database). *)
From Coq Require Import Permutation.
From Verif Require Import Base ParamModel ParamSpec ParamText ParamExpand ParamProofs ParamIterModel ParamIterProofs ParamFinal.

(** C01. Names: idempotent canonical form, same length, same parameter iff same letters up to case. *)
Theorem C01_names_case_insensitive :
  (forall s, par_rule1 (par_rule1 s) = par_rule1 s) /\
  (forall s, List.length (par_rule1 s) = List.length s) /\
  (forall a b, par_rule1 a = par_rule1 b <-> map tolower a = map tolower b) /\
  (forall d a b, map tolower a = map tolower b -> get_parameter d a = get_parameter d b).
Proof.
  exact (conj rule_idem (conj rule_length (conj rule_eq_iff
    (fun d a b H => eq_trans (get_parameter_pars d a) (eq_trans (f_equal (find_par (pars d)) (proj2 (rule_eq_iff a b) H))
       (eq_sym (get_parameter_pars d b))))))).
Qed.
Print Assumptions C01_names_case_insensitive.
Example C01_ex : par_rule1 (S_ "bh_Radius_X") = S_ "BH_radius_x" /\ par_rule1 (S_ "TolEr") = S_ "toler".
Proof. split; reflexivity. Qed.

(** C02. After every history of API calls with well-formed values the outputs (string, integer, number and
    array reads, aborts, undefined behaviour) are those of the map of ParamSpec.v; and in every reachable
    database (arbitrary texts) there are no two entries with the same name up to case. *)
Theorem C02_database_is_a_map :
  (forall strtod fmt20 h, Forall wf_sop h -> no_default_on_empty strtod fmt20 s_init h ->
     outs (run strtod fmt20 None (map call h)) = outs (s_run strtod fmt20 s_init h)) /\
  (forall strtod fmt20 h d os p q, run strtod fmt20 None h = Ok (d, os) ->
     In p (pars d) -> In q (pars d) -> lower (lv p) = lower (lv q) -> p = q) /\
  (* a write to another name does not change a name in the map *)
  (forall strtod fmt20 m o m' x n, s_step strtod fmt20 m o = Ok (m', x) -> writes n o = false ->
     s_get m' n = s_get m n).
Proof.
  exact (conj (fun st fm h W N => proj1 (run_agree st fm h None s_init (R_init st) W N))
        (conj unique_lower s_step_other)).
Qed.
Print Assumptions C02_database_is_a_map.
Example C02_ex : exists h, Forall wf_sop h /\ no_default_on_empty (fun _ => 0%N) (fun _ => S_ "1.0e+00") s_init h /\
  outs (run (fun _ => 0%N) (fun _ => S_ "1.0e+00") None (map call h)) =
    Ok [ONone; ONone; ONone; OStr (Some (S_ "6")); OStr (Some (S_ "x"))].
Proof.
  exists [Ssets (S_ "a_B") (TPlain (S_ "x")); Ssets (S_ "n") (TIter [(S_ "5", Some 2%N); (S_ "6", None)]);
          Supdate_ip 7; Sgets (S_ "N") true; Sgets (S_ "A_b") true].
  split; [|split; [vm_compute; tauto|vm_compute; reflexivity]].
  assert (P : forall v, v <> [] -> ~ In ">"%char v -> ~ In "("%char v -> ~ In SP v -> wf_text (TPlain v)).
  { intros v A B C D. split; [exact A|]. split; [intros ->; apply D; left; reflexivity|]. split.
    - intros (b & r & ->). apply B. apply in_or_app. right. right. left. reflexivity.
    - intros (b & d & r & -> & _). apply C. apply in_or_app. right. left. reflexivity. }
  repeat constructor; try (cbn; lia); try discriminate;
    try (intros [K|[]]; discriminate); try (vm_compute; congruence).
  - intros (b & r & E). destruct b as [|? [|? ?]]; discriminate.
  - intros (b & d & r & E & _). destruct b as [|? [|? ?]]; discriminate.
Qed.

(** C03. *)
Theorem C03_add_duplicate_aborts :
  (forall fmt20 d n n', lower n = lower n' -> (exists p, get_parameter d n = Some p) ->
    (forall v, add_parameter d n' v = Abort) /\ (forall x, add_double fmt20 d n' x = Abort) /\
    (forall a, add_array d n' a = Abort)) /\
  (forall d n v d', get_parameter d n = None -> update_string d n v = Ok d' ->
    exists p, pars d' = pars d ++ [p] /\ lv p = par_rule1 n) /\
  (forall d n v d' p, get_parameter d n = Some p -> update_string d n v = Ok d' ->
    map lv (pars d') = map lv (pars d)).
Proof. exact (conj added_then_add_aborts (conj set_absent_creates_one set_present_creates_none)). Qed.
Print Assumptions C03_add_duplicate_aborts.
Example C03_ex : exists d d', add_parameter None (S_ "a_b") (Some (S_ "1")) = Ok d /\
  (exists p, get_parameter d (S_ "A_B") = Some p) /\ get_parameter d (S_ "c") = None /\
  update_string d (S_ "c") (Some (S_ "2")) = Ok d'.
Proof. eexists. eexists. split; [vm_compute; reflexivity|]. split; [eexists; vm_compute; reflexivity|].
  split; vm_compute; reflexivity. Qed.

(** C04. Pseti(n,z), then anything that does not write n, then Pgeti(n') gives z. *)
Theorem C04_integer_round_trip : forall strtod fmt20 h1 n z h2 n' d os,
  let h := h1 ++ Sseti n z :: h2 ++ [Sgeti n' true] in
  Forall wf_sop h -> no_default_on_empty strtod fmt20 s_init h ->
  (INT_MIN <= z <= INT_MAX)%Z ->
  map tolower n = map tolower n' -> Forall (fun o => writes n o = false) h2 ->
  run strtod fmt20 None (map call h) = Ok (d, os) ->
  last os ONone = OInt z.
Proof.
  exact (fun st fm h1 n z h2 n' d os W N R =>
    int_round_trip st fm h1 n z h2 n' d os W N
      (proj2 (andb_true_iff _ _) (conj (proj2 (Z.leb_le _ _) (proj1 R)) (proj2 (Z.leb_le _ _) (proj2 R))))).
Qed.
Print Assumptions C04_integer_round_trip.
(** the single step without any assumption on the database *)
Theorem C04_set_get_any_database : forall d n n' z, int_range z = true -> lower n = lower n' ->
  exists d', update_integer d n z = Ok d' /\ forall f, get_I d' n' f = Ok z.
Proof. exact Pseti_Pgeti. Qed.
Print Assumptions C04_set_get_any_database.
Example C04_ex : exists d os, run (fun _ => 0%N) (fun _ => []) None
  (map call ([Sseti (S_ "A_b") (-2147483648)%Z; Sseti (S_ "q") 3%Z; Sgeti (S_ "a_B") true])) = Ok (d, os) /\
  last os ONone = OInt (-2147483648)%Z.
Proof. eexists. eexists. split; vm_compute; reflexivity. Qed.

(** C05. Reads through the cache: part of C02 (ODbl outputs).  Restated for one name: after any history, Pgetd
    gives the number given by Psetd, or strtod of the current text. *)
Theorem C05_numeric_reads_are_current_partial : forall strtod fmt20 h n,
  Forall wf_sop (h ++ [Sgetd n true]) -> no_default_on_empty strtod fmt20 s_init (h ++ [Sgetd n true]) ->
  outs (run strtod fmt20 None (map call (h ++ [Sgetd n true]))) =
  outs (s_run strtod fmt20 s_init (h ++ [Sgetd n true])).
Proof. exact (fun st fm h n W N => proj1 (run_agree st fm _ None s_init (R_init st) W N)). Qed.
Print Assumptions C05_numeric_reads_are_current_partial.
(** the excluded case really is stale: p=1; p=""; read as number; Pset_default(p,"5"); the number read is still
    strtod("") although the text is "5" *)
Theorem C05_stale_after_set_default_refuted : forall strtod fmt20, strtod [] <> strtod (S_ "5") ->
  exists h d os, run strtod fmt20 None h = Ok (d, os) /\
    h = [Psets (S_ "p") (Some (S_ "1")); Psets (S_ "p") (Some []); Pgetd (S_ "p") true;
         Pdefault (S_ "p") (Some (S_ "5")); Pgets (S_ "p") true; Pgetd (S_ "p") true] /\
    os = [ONone; ONone; ODbl (strtod []); ONone; OStr (Some (S_ "5")); ODbl (strtod [])] /\
    ODbl (strtod []) <> ODbl (strtod (S_ "5")).
Proof. exact stale_default. Qed.
Print Assumptions C05_stale_after_set_default_refuted.
Example C05_ex : exists strtod : str -> dbl, strtod [] <> strtod (S_ "5").
Proof. exists (fun s => N.of_nat (List.length s)). vm_compute. discriminate. Qed.

(** C06. *)
Theorem C06_free_removes_exactly_one :
  (forall strtod fmt20 h d os n, run strtod fmt20 None h = Ok (d, os) ->
     Permutation (pars (free_parameter d n)) (filter (fun q => negb (str_eqb (lv q) (par_rule1 n))) (pars d))) /\
  (forall d n, get_parameter d n = None -> free_parameter d n = d).
Proof. exact (conj free_reachable free_absent). Qed.
Print Assumptions C06_free_removes_exactly_one.
Example C06_ex : exists d os, run (fun _ => 0%N) (fun _ => []) None
  [Psets (S_ "a") (Some (S_ "1")); Psets (S_ "b") (Some (S_ "2")); Psets (S_ "c") (Some (S_ "3")); Pfree (S_ "A")] = Ok (d, os)
  /\ map rv (pars d) = [Some (S_ "3"); Some (S_ "2")].
Proof. eexists. eexists. split; vm_compute; reflexivity. Qed.

(** C07. v0->v1->...->vk: iteration n uses v_n, and the last value beyond the end. *)
Theorem C07_nth_iterative_value : forall vs n,
  2 <= List.length vs -> Forall (fun v => v <> [] /\ ~ In ">"%char v) vs ->
  exists v, get_n_value_str (join (S_ "->") vs) n = Ok v /\
            nth_error vs (Nat.min n (List.length vs - 1)) = Some v.
Proof. exact get_n_value_join. Qed.
Print Assumptions C07_nth_iterative_value.
Example C07_ex : get_n_value_str (S_ "1->-2->3") 1 = Ok (S_ "-2") /\ get_n_value_str (S_ "1->-2->3") 9 = Ok (S_ "3").
Proof. split; reflexivity. Qed.

(** C08. v(x1) is undefined behaviour for every value v. *)
Theorem C08_single_multiplicity_one_refuted : forall d n v,
  get_parameter d n = None -> v <> [] -> ~ In ">"%char v -> ~ In "("%char v ->
  add_parameter d n (Some (v ++ S_ "(x1)")) = UB.
Proof. exact single_mult_one. Qed.
Print Assumptions C08_single_multiplicity_one_refuted.
Example C08_ex : add_parameter None (S_ "p") (Some (S_ "5(x1)")) = UB.
Proof. reflexivity. Qed.

(** C09. *)
Theorem C09_multiplicity_expansion :
  (forall its, Forall wf_item its -> its <> [] ->
     parse_multiplicity (render its) = Ok (join (S_ "->") (values its))) /\
  (forall s, parse_multiplicity (s ++ S_ "->") = Abort) /\
  (forall f pre v r, f <> 0 -> (pre = [] \/ exists i, pre = i ++ [">"%char]) -> ~ In ">"%char v ->
     ~ In "("%char pre -> ~ In "("%char v -> expand_loop f (pre ++ v ++ S_ "(x0)" ++ r) = Abort).
Proof. exact (conj parse_multiplicity_render (conj parse_multiplicity_trailing expand_loop_zero)). Qed.
Print Assumptions C09_multiplicity_expansion.
Example C09_ex : exists its, Forall wf_item its /\ render its = S_ "1->2(x2)->5(x3)->8" /\
  values its = [S_ "1"; S_ "2"; S_ "2"; S_ "5"; S_ "5"; S_ "5"; S_ "8"].
Proof.
  exists [(S_ "1", None); (S_ "2", Some 2%N); (S_ "5", Some 3%N); (S_ "8", None)].
  split; [|split; reflexivity].
  repeat constructor; try discriminate; try (intros [K|[]]; discriminate); try (vm_compute; congruence).
Qed.

(** C10. The loop makes at most length(s) rounds on every text, so the fuel of the model is never exhausted. *)
Theorem C10_expansion_terminates :
  (forall s n s', rounds s n s' -> n <= List.length s) /\
  (forall f s, List.length s <= f -> expand_loop f s = expand_loop (List.length s) s).
Proof. exact (conj rounds_bound expand_loop_fuel). Qed.
Print Assumptions C10_expansion_terminates.
Example C10_ex : exists s', rounds (S_ "(x3(x2))") 2 s'.
Proof.
  eexists. eapply rounds_S; [reflexivity|reflexivity|]. eapply rounds_S; [reflexivity|reflexivity|].
  apply rounds_0.
Qed.

(** C11. *)
Theorem C11_total_iterations :
  (forall strtod fmt20 h d os m os',
     Forall wf_sop h -> no_default_on_empty strtod fmt20 s_init h ->
     run strtod fmt20 None (map call h) = Ok (d, os) -> s_run strtod fmt20 s_init h = Ok (m, os') ->
     s_get m (S_ "total_iterations_ip") = None ->
     exists T d', total_iterations d = Ok (Z.of_nat T, d') /\
       (1 <= T /\ (forall k e, ent m k = Some e -> List.length (vals e) <= T) /\
        (T = 1 \/ exists k e, ent m k = Some e /\ List.length (vals e) = T)) /\
       ((Z.of_nat T < INT_MAX)%Z -> exists d'', total_iterations d' = Ok (Z.of_nat T, d''))) /\
  (forall d z p, get_parameter d (S_ "total_iterations_ip") = Some p -> rv p = Some (dec_Z z) ->
     (0 <= z < INT_MAX)%Z -> total_iterations d = Ok (z, d)).
Proof. exact (conj total_reachable total_user). Qed.
Print Assumptions C11_total_iterations.
Definition C11_db : db := Eval vm_compute in match run (fun _ => 0%N) (fun _ => []) None
   [Psets (S_ "n_a") (Some (S_ "5->7(x2)->9")); Psets (S_ "tol") (Some (S_ "1->2"))] with Ok (d, _) => d | _ => None end.
Example C11_ex :
  (match total_iterations C11_db with Ok (t, _) => t | _ => 0%Z end) = 4%Z /\
  s_get s_init (S_ "total_iterations_ip") = None.
Proof. split; vm_compute; reflexivity. Qed.

(** C12. One call, and the whole main loop: the iterations visited are I, I+1, ..., T-1 where I is the counter
    found at the start (0 in a fresh run, the stored one after a restart) and T the total. *)
Theorem C12_iteration_counter :
  (forall strtod FS mkdir cp dirname d fs j prefix I T d0 ret it d' fs',
     counter d prefix I -> (0 <= I)%Z -> (0 <= j)%Z -> (Z.max I j < INT_MAX)%Z ->
     total_iterations d = Ok (T, d0) ->
     update_iteration_params strtod FS mkdir cp dirname d fs j prefix = Ok (ret, it, d', fs') ->
     let iter := Z.max I j in
     ((T <= iter)%Z /\ ret = 1%Z /\ it = None /\ get_I d' (prefix ++ S_ "STOP") true = Ok 1%Z /\ counter d' prefix iter)
     \/
     ((iter < T)%Z /\ ret = 0%Z /\ it = Some iter /\ counter d' prefix (if (j <? I)%Z then iter + 1 else iter)%Z /\
      (forall k p vs, get_parameter d k = Some p -> iterative p = true -> rv_ip p = Some (join arrow vs) ->
        2 <= List.length vs -> vals_ok vs -> (forall w, In w (own_names prefix) -> lower k <> lower w) ->
        get_S d' k true = Ok (nth_clamped vs (Z.to_nat iter))))) /\
  (forall strtod FS mkdir cp dirname prefix T d fs l I,
     loop strtod FS mkdir cp dirname prefix T 0 d fs l ->
     counter d prefix I -> (0 <= I < INT_MAX)%Z -> (T < INT_MAX)%Z ->
     l = zrange I (Z.to_nat (T - I))).
Proof.
  exact (conj update_it_step
    (fun st FS mk cp dn prefix T d fs l I HL HC HI HT =>
       eq_ind (Z.max I 0) (fun z => l = zrange z (Z.to_nat (T - z)))
         (loop_visits st FS mk cp dn prefix T 0 d fs l HL I HC (proj1 HI) (Z.le_refl 0)
            (eq_ind_r (fun z => (z < INT_MAX)%Z) (proj2 HI) (Z.max_l I 0 (proj1 HI))) HT)
         I (Z.max_l I 0 (proj1 HI)))).
Qed.
Print Assumptions C12_iteration_counter.
(** a fresh run with 2 iterations: three calls 0, 1, stop *)
Definition C12_db : db := match run (fun _ => 0%N) (fun _ => []) None
   [Psets (S_ "n_a") (Some (S_ "5->7")); Psets (S_ "n_b") (Some (S_ "5")); Psets (S_ "n_c") (Some (S_ "5"));
    Pseti (S_ "P_iteration") 0%Z; Pseti (S_ "P_resolution_iteration") 0%Z;
    Psets (S_ "parameter_file_name") (Some (S_ "f.par")); Psets (S_ "parameter_file_name_stem") (Some (S_ "f"));
    Psets (S_ "relative_root_path") (Some (S_ "."))] with Ok (d, _) => d | _ => None end.
Definition C12_up := update_iteration_params (fun _ => 0%N) unit (fun fs p n => Ok (p ++ S_ "/" ++ n, fs))
   (fun fs _ => fs) (fun s a b c => s ++ dec_Z a ++ dec_Z b ++ dec_Z c).
Definition C12_next (d : db) (j : Z) : Z * option Z * db :=
  match C12_up d tt j (S_ "P_") with Ok (r, it, d', _) => (r, it, d') | _ => (2%Z, None, None) end.
(** evaluated on the concrete database: iterations 0 and 1 run, the third call raises STOP *)
Definition C12_d1 : db := Eval vm_compute in snd (C12_next C12_db 0).
Definition C12_d2 : db := Eval vm_compute in snd (C12_next C12_d1 1).
Definition C12_d3 : db := Eval vm_compute in snd (C12_next C12_d2 2).
Example C12_ex :
   C12_up C12_db tt 0 (S_ "P_") = Ok (0%Z, Some 0%Z, C12_d1, tt) /\
   C12_up C12_d1 tt 1 (S_ "P_") = Ok (0%Z, Some 1%Z, C12_d2, tt) /\
   C12_up C12_d2 tt 2 (S_ "P_") = Ok (1%Z, None, C12_d3, tt) /\
   counter C12_db (S_ "P_") 0 /\
   (match total_iterations C12_db with Ok (t, _) => t | _ => 0%Z end) = 2%Z.
Proof.
  split; [vm_cast_no_check (eq_refl (Ok (0%Z, Some 0%Z, C12_d1, tt)))|].
  split; [vm_cast_no_check (eq_refl (Ok (0%Z, Some 1%Z, C12_d2, tt)))|].
  split; [vm_cast_no_check (eq_refl (Ok (1%Z, @None Z, C12_d3, tt)))|].
  split; [|vm_compute; reflexivity].
  eexists. split; [vm_compute; reflexivity|]. split; vm_compute; reflexivity.
Qed.
