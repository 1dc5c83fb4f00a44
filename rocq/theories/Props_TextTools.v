(** Props_TextTools.v - property theorems C47..C51: text comparison and search, formats, replacement, list parameters,
    and the output folder of each resolution. *)
From Verif Require Import Base ParamModel ParamSpec ParamText ParamProofs ParamIterModel ParamIterProofs TextModel TextSpec TextFinal ParamFolder
  TextToolsModel TextToolsSpec TextToolsProofs Props_Param.

(** C47. strcmp_i is equality up to case and false for a null argument; strstr_i is containment up to case; find_index_string
    gives the position of the first equal text and UINT_MAX when there is none. *)
Theorem C47_text_search :
  (forall a b, strcmp_i a b = true <-> exists x y, a = Some x /\ b = Some y /\ map tolower x = map tolower y) /\
  (forall a b, strstr_i a b = true <-> exists x y u v w, a = Some x /\ b = Some y /\ x = u ++ v ++ w /\ map tolower v = map tolower y) /\
  (forall h n,
    (exists k, nth_error h k = Some n /\ (forall j, j < k -> nth_error h j <> Some n) /\ find_index_string h n = Z.of_nat k) \/
    (~ In n h /\ find_index_string h n = UINT_MAX)).
Proof. exact (conj strcmp_i_spec (conj strstr_i_spec find_index_spec)). Qed.
Print Assumptions C47_text_search.
Example C47_ex : strcmp_i (Some (S_ "Yes")) (Some (S_ "yEs")) = true /\ strstr_i (Some (S_ "bhNS_x")) (Some (S_ "Ns")) = true /\
  strcmp_i None (Some (S_ "yes")) = false /\ find_index_string [S_ "x"; S_ "y"; S_ "y"] (S_ "y") = 1%Z.
Proof. repeat split; vm_compute; reflexivity. Qed.

(** C48. check_format_s with a format whose delimiters (the characters other than '?') are i ++ [l] accepts exactly the texts
    in which the delimiters i occur in this order before the first l; a null text is never accepted. *)
Theorem C48_check_format : (forall f, check_format_s None f = Ok false) /\ forall (s f i : str) l,
  filter (fun c => negb (ch_eqb c "?"%char)) f = i ++ [l] -> List.length (i ++ [l]) < 400 ->
  exists b, check_format_s (Some s) f = Ok b /\ (b = true <-> exists u r, s = u ++ l :: r /\ ~ In l u /\ Sub i u).
Proof. exact (conj (fun _ => eq_refl) check_format_spec). Qed.
Print Assumptions C48_check_format.
Example C48_ex : check_format_s (Some (S_ "[1,2]")) (S_ "[?]") = Ok true /\ check_format_s (Some (S_ "]1,2[")) (S_ "[?]") = Ok false.
Proof. split; vm_compute; reflexivity. Qed.
(** so a format whose last delimiter occurs earlier too is never accepted, even by the text it describes *)
Theorem C48_repeated_delimiter_refuted : forall (s f i : str) l,
  filter (fun c => negb (ch_eqb c "?"%char)) f = i ++ [l] -> List.length (i ++ [l]) < 400 -> In l i ->
  check_format_s (Some s) f = Ok false.
Proof. exact check_format_repeated. Qed.
Print Assumptions C48_repeated_delimiter_refuted.
Example C48_ex2 : check_format_s (Some (S_ "|a|")) (S_ "|?|") = Ok false /\
  filter (fun c => negb (ch_eqb c "?"%char)) (S_ "|?|") = S_ "|" ++ ["|"%char].
Proof. split; vm_compute; reflexivity. Qed.

(** C49. regex_replace with a pattern without special characters replaces every occurrence (from the left, not overlapping)
    and leaves the rest; the result says whether there was one.  Other patterns are not modelled except an anchored one. *)
Theorem C49_replace_all_partial : forall (p repl : str) l, p <> [] -> l <> [] ->
  Forall (first_at_end p) (removelast l) -> ~ occurs p (last l []) ->
  regex_replace (rx_literal p) repl (join p l) = Ok (match l with [_] => false | _ => true end, join repl l).
Proof. exact replace_literal. Qed.
Print Assumptions C49_replace_all_partial.
Example C49_ex : regex_replace (rx_literal (S_ "NS")) (S_ "BH") (S_ "aNSbNSNS") = Ok (true, S_ "aBHbBHBH").
Proof. vm_compute. reflexivity. Qed.
(** an anchored pattern "^p" is replaced again wherever p follows the text replaced so far (regexec is called on the rest of
    the text without REG_NOTBOL) *)
Theorem C49_anchored_refuted : forall (p repl : str) k r, p <> [] -> is_prefix p r = false ->
  regex_replace (rx_anchored p) repl (List.concat (repeat p (S k)) ++ r) = Ok (true, List.concat (repeat repl (S k)) ++ r).
Proof. exact replace_anchored. Qed.
Print Assumptions C49_anchored_refuted.
Example C49_ex2 : regex_replace (rx_anchored (S_ "a")) (S_ "x") (S_ "aab") = Ok (true, S_ "xxb").
Proof. vm_compute. reflexivity. Qed.

(** C50. Bracketed list parameters and adjust(...) parameters. *)
Theorem C50_list_parameters :
  (forall (a r : str) (l : list str), l <> [] ->
     Forall (fun v => v <> [] /\ ~ In ","%char v /\ ~ In "["%char v /\ ~ In "]"%char v /\ ~ In NUL v) l ->
     ~ In "["%char a -> ~ In "]"%char a -> ~ In NUL a -> ~ In NUL r ->
     List.length (a ++ "["%char :: join_with ","%char l ++ "]"%char :: r) < 400 ->
     read_EoS_in_parameter_file (Some (a ++ "["%char :: join_with ","%char l ++ "]"%char :: r)) = Ok l) /\
  (forall s : str, (~ exists u b r, s = u ++ "["%char :: b ++ "]"%char :: r /\ ~ In "]"%char u /\ ~ In "]"%char b) ->
     read_EoS_in_parameter_file (Some s) = Abort) /\
  (forall a r : str, ~ In "["%char a -> ~ In "]"%char a -> ~ In NUL a -> ~ In NUL r -> List.length (a ++ S_ "[]" ++ r) < 400 ->
     read_EoS_in_parameter_file (Some (a ++ S_ "[]" ++ r)) = Abort) /\
  (forall a x y z r : str, map tolower a = S_ "adjust" ->
     Forall (fun v => v <> [] /\ ~ In ","%char v /\ ~ In "("%char v /\ ~ In ")"%char v /\ ~ In NUL v) [x; y; z] -> ~ In NUL r ->
     parse_adjust_parameter (a ++ "("%char :: x ++ ","%char :: y ++ ","%char :: z ++ ")"%char :: r) = Ok (Some x, Some y, Some z)) /\
  (forall par : str, map tolower par = S_ "none" -> parse_adjust_parameter par = Ok (None, None, None)) /\
  (forall par : str, ~ contains_i par (S_ "adjust(") -> ~ contains_i par (S_ "none") -> parse_adjust_parameter par = Abort).
Proof. exact (conj read_list_spec (conj read_list_abort (conj read_list_empty (conj adjust_three (conj adjust_none adjust_abort))))). Qed.
Print Assumptions C50_list_parameters.
Example C50_ex : read_EoS_in_parameter_file (Some (S_ "[2.0,3.0e-2,1]")) = Ok [S_ "2.0"; S_ "3.0e-2"; S_ "1"] /\
  parse_adjust_parameter (S_ "Adjust(x_CM,Omega,1)") = Ok (Some (S_ "x_CM"), Some (S_ "Omega"), Some (S_ "1")) /\
  parse_adjust_parameter (S_ "later") = Abort /\ read_EoS_in_parameter_file (Some (S_ "2.0")) = Abort.
Proof. repeat split; vm_compute; reflexivity. Qed.

(** C51. In a call that goes on to the next iteration: at iteration 0, or when the folder name made from n_a, n_b, n_c differs
    from the one before the call, a new folder and its Diagnostics folder are made and recorded, the flag
    did_resolution_change? is 1 and the resolution counter is 0; otherwise the flag is 0, the counter grows by one and no folder
    is made. *)
Theorem C51_new_folder_iff_resolution_changed :
  forall strtod FS mkdir shell_cp dirname d fs j prefix it d' fs' stem a b c a' b' c' r,
  (forall f p n q f', mkdir f p n = Ok (q, f') -> plain_value q) ->
  update_iteration_params strtod FS mkdir shell_cp dirname d fs j prefix = Ok (0%Z, Some it, d', fs') ->
  text_is d (S_ "parameter_file_name_stem") stem ->
  int_is d (S_ "n_a") a -> int_is d (S_ "n_b") b -> int_is d (S_ "n_c") c ->
  int_is d' (S_ "n_a") a' -> int_is d' (S_ "n_b") b' -> int_is d' (S_ "n_c") c' ->
  int_is d (prefix ++ S_ "resolution_iteration") r -> (0 <= r < INT_MAX)%Z ->
  let folder a b c := dirname stem (to_uint a) (to_uint b) (to_uint c) in
  ((it = 0%Z \/ folder a b c <> folder a' b' c') /\
    int_is d' (prefix ++ S_ "did_resolution_change?") 1 /\ int_is d' (prefix ++ S_ "resolution_iteration") 0 /\
    exists top fs0 dir fs1 diag fs2 parfile,
      text_is d' (S_ "top_directory") top /\
      mkdir fs0 top (folder a' b' c') = Ok (dir, fs1) /\ text_is d' (prefix ++ S_ "my_directory") dir /\
      mkdir fs1 dir (S_ "Diagnostics") = Ok (diag, fs2) /\ text_is d' (prefix ++ S_ "Diagnostics") diag /\
      fs' = shell_cp fs2 parfile)
  \/
  ((it <> 0%Z /\ folder a b c = folder a' b' c') /\
    int_is d' (prefix ++ S_ "did_resolution_change?") 0 /\ int_is d' (prefix ++ S_ "resolution_iteration") (r + 1) /\
    (get_S d (S_ "top_directory") false <> Ok None -> fs' = fs)).
Proof. exact resolution_step. Qed.
Print Assumptions C51_new_folder_iff_resolution_changed.
(** the database of C12: iteration 0 makes a folder, iteration 1 changes n_a from 5 to 7 and makes another *)
Example C51_ex : C12_up C12_db tt 0 (S_ "P_") = Ok (0%Z, Some 0%Z, C12_d1, tt) /\
  int_is C12_d1 (S_ "n_a") 5 /\ int_is C12_d2 (S_ "n_a") 7 /\ int_is C12_d1 (S_ "P_resolution_iteration") 0 /\
  int_is C12_d2 (S_ "P_did_resolution_change?") 1.
Proof.
  split; [vm_cast_no_check (eq_refl (Ok (0%Z, Some 0%Z, C12_d1, tt)))|].
  repeat split; try (vm_compute; discriminate); vm_compute; reflexivity.
Qed.
