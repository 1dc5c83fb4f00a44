(** TextModel.v - text tools and the parameter file reader.
    Sources (all under /repo/Src/Main/Modules/Text_and_File_Tools):
      text_tools.c             strcmp_i, strstr_i, dup_s, tok_s, read_separated_items_in_string, find_index_string
      reading_parameter_file.c read_input_file, populate_parameters, make_buffer
    Strings that the code cuts in place are modelled as a memory block (list of bytes, with the NUL bytes)
    and pointers into it as offsets, so that the aliasing between a token and the saved pointer is kept. *)
From Verif Require Import Base ParamModel.

(** the C string that starts at offset p of block m: up to (not including) the first NUL *)
Fixpoint cstr (m : str) : str :=
  match m with
  | [] => []
  | c :: m' => if ascii_dec c NUL then [] else c :: cstr m'
  end.
Definition cstr_at (m : str) (p : nat) : str := cstr (skipn p m).

(** writing n NUL bytes at offset p *)
Definition zero_at (m : str) (p n : nat) : str := firstn p m ++ repeat NUL n ++ skipn (p + n) m.

(** length of the run of delimiters at the start: text_tools.c:158-159 *)
Fixpoint run_len (d : ascii) (s : str) : nat :=
  match s with
  | c :: s' => if ascii_dec c d then S (run_len d s') else 0
  | [] => 0
  end.

(** *** tok_s, text_tools.c:124-175.  [str] = the str argument (None = null), [save] = *savestr on entry.
    Result: block, returned pointer, *savestr on exit. *)
Definition tok_s (m : str) (str_ : option nat) (d : ascii) (save : option nat)
  : str * option nat * option nat :=
  match (match str_ with Some p => Some p | None => save end) with
  | None => (m, None, save)                                   (* :138 *)
  | Some p =>
    match cstr_at m p with
    | [] => (m, None, save)                                   (* :139 *)
    | c :: t =>
      let lead := ch_eqb c d in                               (* :145-152 *)
      let p1 := if lead then S p else p in
      let t1 := if lead then t else c :: t in
      match strchr t1 d with                                  (* :153-167 *)
      | Some (b, r) =>
        let n := run_len d r in
        (zero_at m (p1 + List.length b) n, Some p1, Some (p1 + List.length b + n))
      | None => if lead then (m, Some p1, Some p1)            (* flg == FOUND, savestr == s *)
                else (m, Some p1, None)                       (* :169-173 *)
      end
    end
  end.

(** *** read_separated_items_in_string, text_tools.c:360-384; the loop with fuel *)
Fixpoint items_loop (fuel : nat) (m : str) (d : ascii) (tok save : option nat) : outcome (list str) :=
  match tok with
  | None => Ok []
  | Some p =>
    match fuel with
    | O => UB
    | S f =>
      let it := cstr_at m p in
      let '(m', tok', save') := tok_s m None d save in
      do l <- items_loop f m' d tok' save'; Ok (it :: l)
    end
  end.
Definition read_separated_items (s : str) (d : ascii) : outcome (list str) :=
  let m := cstr s ++ [NUL] in
  let '(m', tok, save) := tok_s m (Some 0) d None in
  items_loop (S (S (List.length m))) m' d tok save.

(** *** populate_parameters, reading_parameter_file.c:43-90.
    [sub_loop] is the inner while: it returns the block, par_l and par_r. f = e_Left only on the first pass. *)
Fixpoint sub_loop (fuel : nat) (m : str) (subtok save2 : option nat) (left : bool)
  (par_l par_r : option str) : outcome (str * option str * option str) :=
  match subtok with
  | None => Ok (m, par_l, par_r)
  | Some p =>
    match fuel with
    | O => UB
    | S f =>
      let s := cstr_at m p in
      let par_l := if left then Some s else par_l in
      let par_r := if left then par_r else Some s in
      let '(m', subtok', save2') := tok_s m None NL save2 in   (* tok_s(0,delimit,&savestr2), :69 *)
      sub_loop f m' subtok' save2' false par_l par_r
    end
  end.
Fixpoint pop_loop (fuel : nat) (d : db) (m : str) (tok save : option nat) : outcome db :=
  match tok with
  | None => Ok d
  | Some p =>
    match fuel with
    | O => UB
    | S f =>
      (* savestr2 is not initialised before the first call; it is only read if that call returned
         a token, and then it was written *)
      let '(m1, subtok, save2) := tok_s m (Some p) "="%char None in
      do r <- sub_loop (S (S (List.length m1))) m1 subtok save2 true None None;
      let '(m2, par_l, par_r) := r in
      do d' <- (match par_l with
                | None => Ok d
                | Some l => match par_r with
                            | None => Abort                    (* :75-76 *)
                            | Some v => add_parameter d l (Some v)
                            end
                end);
      let '(m3, tok', save') := tok_s m2 None NL save in
      pop_loop f d' m3 tok' save'
    end
  end.
Definition populate_parameters (d : db) (buff : str) : outcome db :=
  let m := cstr buff ++ [NUL] in                               (* dup_s, :48 *)
  let '(m1, tok, save) := tok_s m (Some 0) NL None in
  pop_loop (S (S (List.length m))) d m1 tok save.

(** *** make_buffer, reading_parameter_file.c:94-189.
    The nested fgetc loops are written as one pass over the bytes of the file; the mode says in which loop
    the program is waiting for its next fgetc:
      Outer (:104)  Comm (:113-116)  Back (:130)  Cont (:134 and :163)  ContBack (:144)  ContComm (:154).
    [buf] is the buffer in reverse, [j] the counter of :177-181. *)
Inductive mode := Outer | Comm | Back | Cont | ContBack | ContComm.
Definition MAX_NUM_CHAR : N := 9999.
Definition EOFC : ascii := ascii_of_N 255.                     (* (char)EOF *)
Definition BS : ascii := ascii_of_N 92.
Definition is_blank (c : ascii) : bool := ch_eqb c SP || ch_eqb c TAB.

(** end of one round of the outer loop: :177-181 *)
Definition round_end (j : N) {A} (k : outcome A) : outcome A := if (MAX_NUM_CHAR <? j)%N then Abort else k.

Fixpoint mb (f : str) (md : mode) (buf : str) (j : N) : outcome str :=
  match f with
  | [] => (* fgetc returned EOF *)
    match md with
    | Outer => round_end j (Ok (EOFC :: buf))                  (* :170-175 *)
    | Comm => round_end j (Ok buf)
    | Back | ContBack => Abort                                 (* :131, :145 *)
    | Cont => round_end j (Ok buf)
    | ContComm => round_end j (Ok (EOFC :: buf))               (* :154-161 *)
    end
  | c :: f' =>
    match md with
    | Outer =>
      if is_blank c then mb f' Outer buf j
      else if ch_eqb c "#"%char then mb f' Comm buf j
      else if ch_eqb c BS then mb f' Back buf j
      else round_end j (mb f' Outer (c :: buf) (j + 1))
    | Comm => if ch_eqb c NL then round_end j (mb f' Outer (NL :: buf) (j + 1)) else mb f' Comm buf j
    | Back => if ch_eqb c NL then mb f' Cont buf j else Abort
    | Cont =>
      if ch_eqb c NL then round_end j (mb f' Outer (NL :: buf) (j + 1))
      else if is_blank c then mb f' Cont buf j
      else if ch_eqb c BS then mb f' ContBack buf j
      else if ch_eqb c "#"%char then mb f' ContComm buf j
      else mb f' Cont (c :: buf) j
    | ContBack => if ch_eqb c NL then mb f' Cont buf j else Abort
    | ContComm => if ch_eqb c NL then round_end j (mb f' Outer (NL :: buf) (j + 1)) else mb f' ContComm buf j
    end
  end.
(** :183-188: buff[i-1] = END; with i == 0 this writes before a null pointer *)
Definition make_buffer (f : str) : outcome str :=
  do buf <- mb f Outer [] 0;
  match buf with
  | [] => UB
  | _ :: b => Ok (rev (NUL :: b))
  end.

(** *** read_input_file, reading_parameter_file.c:9-36, for a file that could be opened *)
Definition read_input_file (d : db) (f : str) : outcome db :=
  do buff <- make_buffer f;
  if Nat.ltb (List.length (cstr buff)) 2 then Abort
  else populate_parameters d buff.

(** *** strcmp_i / strstr_i, text_tools.c:14-87: null gives 0 *)
Definition strcmp_i (a b : option str) : bool :=
  match a, b with
  | Some x, Some y => str_eqb (map tolower x) (map tolower y)
  | _, _ => false
  end.
Definition strstr_i (a b : option str) : bool :=
  match a, b with
  | Some x, Some y => match strstr (map tolower x) (map tolower y) with Some _ => true | None => false end
  | _, _ => false
  end.

(** *** find_index_string, text_tools.c:262-276: UINT_MAX when absent *)
Fixpoint find_index_from (i : Z) (h : list str) (n : str) : Z :=
  match h with
  | [] => UINT_MAX
  | x :: h' => if str_eqb x n then i else find_index_from (i + 1) h' n
  end.
Definition find_index_string (h : list str) (n : str) : Z := find_index_from 0 h n.

(** *** sub_s, text_tools.c:183-193: on a block; [None] result = null pointer.
    tok_s(sub2,..) with sub2 null reads the local [sub] (null) and returns null. *)
Definition sub_s (m : str) (str_ : option nat) (d1 d2 : ascii) (save : option nat)
  : str * option nat * option nat :=
  let '(m1, sub2, save1) := tok_s m str_ d2 save in
  let '(m2, _, sub) := tok_s m1 sub2 d1 None in
  (m2, sub, save1).
