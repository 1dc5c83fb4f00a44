(** Props_Text.v - C13-C17: text tools and the parameter file. *)
From Verif Require Import Base ParamModel ParamSpec ParamText TextModel TextSpec TextProofs TextPopulate TextFinal.

(** C13. A file that, blanks, comments and line joins removed, consists of name=value lines and blank lines:
    the calls add_parameter(name,value) are made for exactly these, in order; with plain values the database is
    exactly these parameters, or the program stops when two names agree up to letter case. *)
Theorem C13_file_parsed_exactly :
  (forall d f ls,
    (N.of_nat (List.length f) <= 9999)%N -> clean f false = Some (file_text ls) ->
    file_end f false false = EPlain \/ file_end f false false = EJoinedComment ->
    Forall (fun l => match l with Some p => wf_assign p | None => True end) ls -> assignments ls <> [] ->
    read_input_file d f =
      fold_left (fun od p => do d <- od; add_parameter d (fst p) (Some (snd p))) (assignments ls) (Ok d)) /\
  (forall f ls,
    (N.of_nat (List.length f) <= 9999)%N -> clean f false = Some (file_text ls) ->
    file_end f false false = EPlain \/ file_end f false false = EJoinedComment ->
    Forall (fun l => match l with Some p => wf_assign p | None => True end) ls -> assignments ls <> [] ->
    Forall (fun p => plain_value (snd p)) (assignments ls) ->
    (NoDup (map (fun p => lower (fst p)) (assignments ls)) ->
       exists db, read_input_file None f = Ok (Some db) /\
         map lv db = map (fun p => par_rule1 (fst p)) (assignments ls) /\
         map rv db = map (fun p => Some (snd p)) (assignments ls) /\
         Forall (fun p => iterative p = false /\ rv_ip p = None /\ rv_array p = None /\ double_flg p = false) db) /\
    (~ NoDup (map (fun p => lower (fst p)) (assignments ls)) -> read_input_file None f = Abort)).
Proof. exact (conj read_file_spec file_to_database). Qed.
Print Assumptions C13_file_parsed_exactly.
Definition C13_file : str := S_ "# header
 a = 1 # one

b_C = x, \
   y
".
Definition C13_lines : list (option (str * str)) :=
  [None; Some (S_ "a", S_ "1"); None; Some (S_ "b_C", S_ "x,y")].
Example C13_ex :
  clean C13_file false = Some (file_text C13_lines) /\ file_end C13_file false false = EPlain /\
  Forall (fun l => match l with Some p => wf_assign p | None => True end) C13_lines /\
  Forall (fun p => plain_value (snd p)) (assignments C13_lines).
Proof.
  split; [vm_compute; reflexivity|]. split; [vm_compute; reflexivity|]. split.
  - repeat constructor; cbn; try discriminate; intros K; repeat (destruct K as [K|K]; [discriminate|]); destruct K.
  - repeat constructor; cbn; try discriminate.
    + intros (a & b & E). destruct a as [|x [|y a]]; discriminate.
    + intros (b & d & r & E & D & _). destruct d as [|d0 d]; [congruence|]. destruct b as [|x [|y b]]; discriminate.
    + intros (a & b & E). destruct a as [|x [|y [|z [|w a]]]]; discriminate.
    + intros (b & d & r & E & D & _). destruct d as [|d0 d]; [congruence|].
      destruct b as [|x [|y [|z [|w b]]]]; discriminate.
Qed.

(** C14. The buffer handed to the parser, for every file up to the size limit, and for every larger file it is
    the same or the program stops. *)
Theorem C14_comments_blanks_joins :
  let buffer f :=
    match clean f false with
    | None => Abort
    | Some t =>
      match file_end f false false with
      | EComment | EJoined => match t with [] => UB | _ => Ok (removelast t ++ [ascii_of_N 0]) end
      | _ => Ok (t ++ [ascii_of_N 0])
      end
    end in
  (forall f, (N.of_nat (List.length f) <= 9999)%N -> make_buffer f = buffer f) /\
  (forall f, make_buffer f = buffer f \/ make_buffer f = Abort).
Proof. exact (conj make_buffer_spec make_buffer_any). Qed.
Print Assumptions C14_comments_blanks_joins.
Example C14_ex : make_buffer (S_ "a = b#c
d\
 e
") = Ok (S_ "a=b
de
" ++ [ascii_of_N 0]) /\ make_buffer (S_ "a\b") = Abort.
Proof. split; reflexivity. Qed.

(** C15. True when the file ends in an ordinary line (and is not one newline followed by one line) ... *)
Theorem C15_last_line_without_newline_partial : forall d f ls n v,
  (N.of_nat (List.length f) <= 9999)%N -> clean f false = Some (file_text ls ++ n ++ "="%char :: v) ->
  file_end f false false = EPlain \/ file_end f false false = EJoinedComment ->
  Forall (fun l => match l with Some p => wf_assign p | None => True end) ls -> wf_assign (n, v) -> ls <> [None] ->
  read_input_file d f =
    fold_left (fun od p => do d <- od; add_parameter d (fst p) (Some (snd p))) (assignments ls ++ [(n, v)]) (Ok d).
Proof. exact read_file_last. Qed.
Print Assumptions C15_last_line_without_newline_partial.
Example C15_ex : clean (S_ "a = 1
b=2") false = Some (file_text [Some (S_ "a", S_ "1")] ++ S_ "b" ++ "="%char :: S_ "2").
Proof. reflexivity. Qed.

(** ... and false otherwise: name = vx # comment <end of file> gives the parameter the value v, without its last
    character x; a file that is one comment is undefined behaviour; newline, name=value <end of file> is refused. *)
Theorem C15_last_line_lost_refuted :
  (forall d n v x c,
    Forall (fun c => blank c = false /\ c <> "#"%char /\ c <> backslash) (n ++ "="%char :: v ++ [x]) ->
    wf_assign (n, v) -> x <> newline -> x <> ascii_of_N 0 -> ~ In newline c ->
    (N.of_nat (List.length (n ++ "="%char :: v ++ [x] ++ "#"%char :: c)) <= 9999)%N ->
    read_input_file d (n ++ "="%char :: v ++ [x] ++ "#"%char :: c) = add_parameter d n (Some v)) /\
  (forall d c, ~ In newline c -> (N.of_nat (S (List.length c)) <= 9999)%N -> read_input_file d ("#"%char :: c) = UB) /\
  (forall d n v, wf_assign (n, v) -> forall d', populate_parameters d (newline :: n ++ "="%char :: v) <> Ok d').
Proof. exact (conj last_char_lost (conj only_comment populate_lead_one)). Qed.
Print Assumptions C15_last_line_lost_refuted.
Example C15_ex2 : (match read_input_file None (S_ "a=10# no newline here") with
  | Ok d => get_S d (S_ "a") true | _ => Abort end) = Ok (Some (S_ "1")).
Proof. reflexivity. Qed.

(** C16. *)
Theorem C16_items_split :
  (forall d l, d <> ascii_of_N 0 -> Forall (fun a => a <> [] /\ ~ In d a /\ ~ In (ascii_of_N 0) a) l ->
     read_separated_items (join_with d l) d = Ok l) /\
  (forall d s, d <> ascii_of_N 0 -> ~ In (ascii_of_N 0) s -> hd_error s <> Some d ->
     read_separated_items s d = Ok (segments d s)).
Proof. exact (conj items_join items_plain). Qed.
Print Assumptions C16_items_split.
Example C16_ex : read_separated_items (S_ "alpha,psi,,B0_U0,") ","%char = Ok [S_ "alpha"; S_ "psi"; S_ "B0_U0"].
Proof. reflexivity. Qed.

(** C17. A leading separator is skipped when at least two items follow, and changes the result otherwise. *)
Theorem C17_leading_separator_partial : forall d l, d <> ascii_of_N 0 ->
  Forall (fun a => a <> [] /\ ~ In d a /\ ~ In (ascii_of_N 0) a) l -> 2 <= List.length l ->
  read_separated_items (d :: join_with d l) d = Ok l.
Proof. exact items_lead_two. Qed.
Print Assumptions C17_leading_separator_partial.
Example C17_ex : read_separated_items (S_ ",a,b") ","%char = Ok [S_ "a"; S_ "b"].
Proof. reflexivity. Qed.
Theorem C17_leading_separator_refuted :
  (forall d a, d <> ascii_of_N 0 -> ~ In (ascii_of_N 0) a -> ~ In d a -> a <> [] ->
     read_separated_items (d :: a) d = Ok [a; a]) /\
  (forall d b, b <> [] -> ~ In "="%char b -> ~ In newline b -> ~ In (ascii_of_N 0) b ->
     populate_parameters d ("="%char :: b ++ [newline]) = add_parameter d b (Some b)).
Proof. exact (conj items_lead_dup eq_line_own_value). Qed.
Print Assumptions C17_leading_separator_refuted.
Example C17_ex2 : read_separated_items (S_ ",a") ","%char = Ok [S_ "a"; S_ "a"].
Proof. reflexivity. Qed.
