(** ParamModel.v - the parameter database of /repo/Src/Main/Core/parameters.c.

    Not modelled: memory allocation failure, the text printed by Psetd, and chars >= 128 in
    toupper/tolower (treated as unchanged, as glibc's C locale does). *)
From Verif Require Import Base.

(** Parameter_T: /repo/Src/Main/Core/typdef_data.h (struct PARAMETER_T).
    A null pointer is [None]; flags are booleans. *)
Record param := mkPar {
  lv : str;                     (* letf value *)
  rv : option str;              (* right value, text *)
  rv_ip : option str;           (* right value of an iterative parameter, whole text *)
  rv_array : option (list dbl); (* right value, array *)
  rv_double : dbl;              (* cached number *)
  double_flg : bool;            (* cache flag *)
  iterative : bool }.

(** parameters_global: a null pointer, or a dense null-terminated array. *)
Definition db := option (list param).
Definition pars (d : db) : list param := match d with Some l => l | None => [] end.

(** *** par_rule1_uppercase_lowercase, parameters.c:1028-1065 (= PAR_NAME_RULE, parameters.h:16) *)
Definition par_rule1 (s : str) : str :=
  match strchr s "_"%char with
  | Some (b, r) => map toupper b ++ map tolower r
  | None => map tolower s
  end.

(** *** get_parameter, parameters.c:323-346: linear search, strcmp on the canonical name. *)
Definition find_par (l : list param) (name : str) : option param :=
  find (fun p => str_eqb (lv p) name) l.
Definition get_parameter (d : db) (name0 : str) : option param :=
  match d with
  | None => None
  | Some l => find_par l (par_rule1 name0)
  end.

(** writing through the pointer get_parameter returned: the first entry with that name *)
Fixpoint upd_first (l : list param) (name : str) (f : param -> param) : list param :=
  match l with
  | [] => []
  | p :: l' => if str_eqb (lv p) name then f p :: l' else p :: upd_first l' name f
  end.
Definition upd_par (d : db) (name0 : str) (f : param -> param) : db :=
  match d with
  | None => None
  | Some l => Some (upd_first l (par_rule1 name0) f)
  end.

(** alloc_parameter, parameters.c:793-809: append a zeroed record; here with its content *)
Definition append_par (d : db) (p : param) : db := Some (pars d ++ [p]).
Definition new_par (name : str) : param :=
  {| lv := name; rv := None; rv_ip := None; rv_array := None;
     rv_double := dbl_zero; double_flg := false; iterative := false |}.

Definition set_rv (v : option str) (p : param) : param :=
  {| lv := lv p; rv := v; rv_ip := rv_ip p; rv_array := rv_array p;
     rv_double := rv_double p; double_flg := double_flg p; iterative := iterative p |}.
Definition set_num (x : dbl) (flg : bool) (p : param) : param :=
  {| lv := lv p; rv := rv p; rv_ip := rv_ip p; rv_array := rv_array p;
     rv_double := x; double_flg := flg; iterative := iterative p |}.
Definition set_flg (flg : bool) (p : param) : param := set_num (rv_double p) flg p.
Definition set_arr (a : option (list dbl)) (p : param) : param :=
  {| lv := lv p; rv := rv p; rv_ip := rv_ip p; rv_array := a;
     rv_double := rv_double p; double_flg := double_flg p; iterative := iterative p |}.
Definition set_ip (v : option str) (p : param) : param :=
  {| lv := lv p; rv := rv p; rv_ip := v; rv_array := rv_array p;
     rv_double := rv_double p; double_flg := double_flg p; iterative := true |}.

(** *** The regular expression "\\(x[[:digit:]]+\\)" (parameters.c:206,209,242,301).
    [mult_at s] : does s start with a match, and what are its digits and the text after it.
    The match at a position is unique because ')' is not a digit. *)
Fixpoint take_digits (s : str) : str * str :=
  match s with
  | c :: s' => if is_digit c then let (d, r) := take_digits s' in (c :: d, r) else ([], s)
  | [] => ([], [])
  end.
Definition mult_at (s : str) : option (str * str) :=
  match s with
  | c1 :: c2 :: s' =>
    if ch_eqb c1 "("%char && ch_eqb c2 "x"%char then
      match take_digits s' with
      | (d, c3 :: r) => if ch_eqb c3 ")"%char && negb (Nat.eqb (List.length d) 0) then Some (d, r) else None
      | (_, []) => None
      end
    else None
  | _ => None
  end.
(** regex_find / regex_search, text_tools.c:295-354, for that pattern: leftmost match.
    Returns the digits; the matched text is "(x" digits ")". *)
Fixpoint regex_find_mult (s : str) : option str :=
  match mult_at s with
  | Some (d, _) => Some d
  | None => match s with [] => None | _ :: s' => regex_find_mult s' end
  end.
Definition regex_search_mult (s : str) : bool :=
  match regex_find_mult s with Some _ => true | None => false end.
Definition arrow : str := S_ "->".
(** regex_search("->$",rv), parameters.c:236 *)
Definition ends_with_arrow (s : str) : bool := is_prefix (rev arrow) (rev s).

(** b_str, parameters.c:250-255: walk back from the match to just after the last '>'
    of the text before it; gives (text up to and including that '>', text after it). *)
Fixpoint split_last_gt (s : str) : str * str :=
  match s with
  | [] => ([], [])
  | c :: s' =>
    match split_last_gt s' with
    | ([], v) => if ch_eqb c ">"%char then ([c], v) else ([], c :: v)
    | (i, v) => (c :: i, v)
    end
  end.
(** inter_str, parameters.c:282-289: v->v->...->v, [m] copies (m >= 1) *)
Fixpoint copies (v : str) (m : nat) : str :=
  match m with
  | O => v
  | S m' => v ++ arrow ++ copies v m'
  end.

(** one round of the loop, parameters.c:243-302.  [d] are the digits of the leftmost match. *)
Definition expand_once (s : str) (d : str) : outcome str :=
  let m_str := S_ "(x" ++ d ++ S_ ")" in
  match strstr s m_str with
  | None => UB  (* l_str would be null *)
  | Some (before, l_str) =>
    let r_str := skipn (List.length m_str) l_str in
    let (i_str, v_str) := split_last_gt before in
    do mult <- atoi d;
    if (mult =? 0)%Z then Abort
    else
      (* n_mult is computed in unsigned int: a wrapped size means writing past the block *)
      if (((mult - 1) * 2 + mult * Z.of_nat (List.length v_str) + 1) <=? UINT_MAX)%Z
      then Ok (i_str ++ copies v_str (Z.to_nat (mult - 1)) ++ r_str)
      else UB
  end.
(** the loop; [fuel] is proved sufficient (C10): running out is reported as UB *)
Fixpoint expand_loop (fuel : nat) (s : str) : outcome str :=
  match regex_find_mult s with
  | None => Ok s
  | Some d =>
    match fuel with
    | O => UB
    | S f => do s' <- expand_once s d; expand_loop f s'
    end
  end.
(** *** parse_multiplicity_of_iterative_parameter, parameters.c:234-307 *)
Definition parse_multiplicity (v : str) : outcome str :=
  if ends_with_arrow v then Abort else expand_loop (S (List.length v)) v.

(** *** get_n_value_str_ip, parameters.c:654-709, for an iterative parameter.
    n = 0 with no arrow computes NULL - rv_ip and copies that many bytes: UB. *)
Fixpoint nth_piece (fuel : nat) (subs : str) (j n : nat) : outcome str :=
  match fuel with
  | O => UB
  | S f =>
    (* subs points just after an arrow; j has been incremented *)
    match strstr subs arrow with
    | None => Ok subs
    | Some (piece, rest) =>
      if Nat.eqb j n then Ok piece else nth_piece f (skipn 2 rest) (S j) n
    end
  end.
Definition get_n_value_str (ip : str) (n : nat) : outcome str :=
  match strstr ip arrow, n with
  | None, O => UB
  | Some (b, _), O => Ok b
  | None, S _ => Ok ip
  | Some (_, r), S _ => nth_piece (List.length ip) (skipn 2 r) 1 n
  end.
Definition get_n_value_str_ip (p : param) (n : nat) : outcome str :=
  if iterative p then
    match rv_ip p with
    | Some ip => get_n_value_str ip n
    | None => Abort
    end
  else Abort.

(** *** add_parameter, parameters.c:187-227 (and add_parameter_string, 180-183) *)
Definition add_parameter (d : db) (lv0 : str) (v : option str) : outcome db :=
  let name := par_rule1 lv0 in
  match get_parameter d name with
  | Some _ => Abort
  | None =>
    match v with
    | None => Ok (append_par d (new_par (par_rule1 lv0)))
    | Some v =>
      if str_eqb v [] || str_eqb v [SP] then Ok (append_par d (new_par name))
      else
        match strstr v arrow, regex_search_mult v with
        | None, false => Ok (append_par d (set_rv (Some v) (new_par name)))
        | _, has_mult =>
          do ip <- (if has_mult then parse_multiplicity v else Ok v);
          let p := set_ip (Some ip) (new_par name) in
          do v0 <- get_n_value_str_ip p 0;
          match v0 with
          | [] => Abort
          | _ => Ok (append_par d (set_rv (Some v0) p))
          end
        end
    end
  end.

Section WithDoubles.
(** strtod(.,0) and sprintf("%.20e",.) as arbitrary functions on text and 64-bit patterns. *)
Variable strtod : str -> dbl.
Variable fmt20 : dbl -> str.

(** *** update_parameter_string, parameters.c:9-25 (Psets) *)
Definition update_string (d : db) (lv0 : str) (v : option str) : outcome db :=
  let name := par_rule1 lv0 in
  match get_parameter d name with
  | Some _ => Ok (upd_par d name (fun p => set_flg false (set_rv v p)))
  | None => add_parameter d name v
  end.

(** *** update_parameter_integer, parameters.c:28-48 (Pseti) *)
Definition update_integer (d : db) (lv0 : str) (z : Z) : outcome db :=
  let name := par_rule1 lv0 in
  match get_parameter d name with
  | Some _ => Ok (upd_par d name (fun p => set_flg false (set_rv (Some (dec_Z z)) p)))
  | None => add_parameter d name (Some (dec_Z z))
  end.

(** *** add_parameter_double, parameters.c:93-120 *)
Definition add_double (d : db) (lv0 : str) (x : dbl) : outcome db :=
  let name := par_rule1 lv0 in
  match get_parameter d name with
  | Some _ => Abort
  | None => Ok (append_par d (set_num x true (set_rv (Some (fmt20 x)) (new_par name))))
  end.

(** *** update_parameter_double_format, parameters.c:52-89 (Psetd); the printed message is not modelled *)
Definition update_double (d : db) (lv0 : str) (x : dbl) : outcome db :=
  let name := par_rule1 lv0 in
  match get_parameter d name with
  | Some _ => Ok (upd_par d name (fun p => set_num x true (set_rv (Some (fmt20 x)) p)))
  | None => add_double d name x
  end.

(** *** add_parameter_array, parameters.c:124-144 *)
Definition add_array (d : db) (lv0 : str) (a : list dbl) : outcome db :=
  let name := par_rule1 lv0 in
  match get_parameter d name with
  | Some _ => Abort
  | None => Ok (append_par d (set_arr (Some a) (new_par name)))
  end.

(** *** update_parameter_array, parameters.c:147-176 *)
Definition update_array (d : db) (lv0 : str) (a : list dbl) : outcome db :=
  let name := par_rule1 lv0 in
  match get_parameter d name with
  | Some p => if iterative p then Abort
              else Ok (upd_par d name (fun p => set_arr (Some a) (set_flg false p)))
  | None => Ok (append_par d (set_arr (Some a) (new_par name)))
  end.

(** *** getters; [fatal] is the flag FATAL (Pgets etc.) or NONE (PgetsEZ etc.).
    With a null data base they return the default even if FATAL. *)
Definition miss {A} (d : db) (fatal : bool) (dflt : A) : outcome A :=
  match d with
  | None => Ok dflt
  | Some _ => if fatal then Abort else Ok dflt
  end.

(** get_parameter_value_I, parameters.c:428-458; atoi(NULL) is UB *)
Definition get_I (d : db) (name0 : str) (fatal : bool) : outcome Z :=
  match get_parameter d name0 with
  | Some p => match rv p with Some s => atoi s | None => UB end
  | None => miss d fatal INT_MAX
  end.

(** get_parameter_value_S, parameters.c:515-545 *)
Definition get_S (d : db) (name0 : str) (fatal : bool) : outcome (option str) :=
  match get_parameter d name0 with
  | Some p => Ok (rv p)
  | None => miss d fatal None
  end.

(** get_parameter_value_D, parameters.c:466-507: caches the number; strtod(NULL) is UB *)
Definition get_D (d : db) (name0 : str) (fatal : bool) : outcome (dbl * db) :=
  match get_parameter d name0 with
  | Some p =>
    if double_flg p then Ok (rv_double p, d)
    else match rv p with
         | Some s => Ok (strtod s, upd_par d name0 (set_num (strtod s) true))
         | None => UB
         end
  | None => do x <- miss d fatal DBL_MAX; Ok (x, d)
  end.

(** get_parameter_array_format, parameters.c:391-420 *)
Definition get_A (d : db) (name0 : str) (fatal : bool) : outcome (option (list dbl)) :=
  match get_parameter d name0 with
  | Some p => Ok (rv_array p)
  | None => miss d fatal None
  end.

(** *** set_default_parameter, parameters.c:766-788: note that double_flg is not reset *)
Definition set_default (d : db) (lv0 : str) (v : option str) : outcome db :=
  let name := par_rule1 lv0 in
  match get_parameter d name with
  | None => add_parameter d name v
  | Some p =>
    match rv p with
    | None => Ok (upd_par d name (set_rv v))
    | Some [] => Ok (upd_par d name (set_rv v))
    | Some _ => Ok d
    end
  end.

(** *** free_parameter, parameters.c:814-855: the last entry moves into the freed slot *)
Fixpoint replace_first (l : list param) (name : str) (q : param) : list param :=
  match l with
  | [] => []
  | p :: l' => if str_eqb (lv p) name then q :: l' else p :: replace_first l' name q
  end.
Definition free_par_list (l : list param) (name : str) : list param :=
  match l with
  | [] => []
  | q0 :: _ =>
    match find_par l name with
    | None => l
    | Some _ => removelast (replace_first l name (last l q0))
    end
  end.
Definition free_parameter (d : db) (name0 : str) : db :=
  match d with
  | None => None
  | Some l => Some (free_par_list l (par_rule1 name0))
  end.

(** *** update_iterative_parameter_ip, parameters.c:620-641 *)
Definition update_iter_one (n : nat) (p : param) : outcome param :=
  if iterative p then
    do v <- get_n_value_str_ip p n;
    let p' := set_rv (Some v) p in
    Ok (if double_flg p then set_num (strtod v) true p' else p')
  else Ok p.
Fixpoint omap {A B} (f : A -> outcome B) (l : list A) : outcome (list B) :=
  match l with
  | [] => Ok []
  | a :: l' => do b <- f a; do bs <- omap f l'; Ok (b :: bs)
  end.
Definition update_iterative (d : db) (n : nat) : outcome db :=
  match d with
  | None => Ok None
  | Some l => do l' <- omap (update_iter_one n) l; Ok (Some l')
  end.

(** *** total_iterations_ip, parameters.c:564-602.
    [count_arrows] is the inner loop: l starts at 1, each further arrow adds one;
    an arrow at the very end of the text aborts.  The result is stored with Pseti. *)
Fixpoint count_arrows (fuel : nat) (subs : str) (l : nat) : outcome nat :=
  match fuel with
  | O => UB
  | S f =>
    match skipn 2 subs with
    | [] => Abort
    | s' => match strstr s' arrow with
            | Some (_, subs') => count_arrows f subs' (S l)
            | None => Ok l
            end
    end
  end.
Definition count_ip (p : param) : outcome nat :=
  match rv_ip p with
  | None => UB (* strstr(NULL,..) *)
  | Some ip => match strstr ip arrow with
               | None => Ok 1
               | Some (_, subs) => count_arrows (List.length ip) subs 1
               end
  end.
Fixpoint max_ip (l : list param) (m : nat) : outcome nat :=
  match l with
  | [] => Ok m
  | p :: l' => if iterative p then do n <- count_ip p; max_ip l' (if Nat.ltb m n then n else m)
               else max_ip l' m
  end.
Definition total_name : str := S_ "total_iterations_ip".
Definition total_iterations (d : db) : outcome (Z * db) :=
  do m <- get_I d total_name false;
  if (to_uint m =? INT_MAX)%Z then
    do n <- max_ip (pars d) 0;
    do d' <- update_integer d total_name (Z.of_nat n + 1);
    Ok ((Z.of_nat n + 1)%Z, d')
  else Ok (to_uint m, d).

(** *** operations of a history, and one step.  Each constructor is one API call. *)
Inductive op :=
| Psets (n : str) (v : option str)
| Pseti (n : str) (z : Z)
| Psetd (n : str) (x : dbl)
| Padds (n : str) (v : option str)
| Paddd (n : str) (x : dbl)
| Padda (n : str) (a : list dbl)
| Pseta (n : str) (a : list dbl)
| Pdefault (n : str) (v : option str)
| Pfree (n : str)
| Pgets (n : str) (fatal : bool)
| Pgeti (n : str) (fatal : bool)
| Pgetd (n : str) (fatal : bool)
| Pgeta (n : str) (fatal : bool)
| Pupdate_ip (k : nat).

Inductive out := ONone | OStr (s : option str) | OInt (z : Z) | ODbl (x : dbl) | OArr (a : option (list dbl)).

Definition step (d : db) (o : op) : outcome (db * out) :=
  let w (x : outcome db) := do d' <- x; Ok (d', ONone) in
  match o with
  | Psets n v => w (update_string d n v)
  | Pseti n z => w (update_integer d n z)
  | Psetd n x => w (update_double d n x)
  | Padds n v => w (add_parameter d n v)
  | Paddd n x => w (add_double d n x)
  | Padda n a => w (add_array d n a)
  | Pseta n a => w (update_array d n a)
  | Pdefault n v => w (set_default d n v)
  | Pfree n => Ok (free_parameter d n, ONone)
  | Pgets n f => do s <- get_S d n f; Ok (d, OStr s)
  | Pgeti n f => do z <- get_I d n f; Ok (d, OInt z)
  | Pgetd n f => do xd <- get_D d n f; Ok (snd xd, ODbl (fst xd))
  | Pgeta n f => do a <- get_A d n f; Ok (d, OArr a)
  | Pupdate_ip k => w (update_iterative d k)
  end.
(** a whole program run: the outputs in order *)
Fixpoint run (d : db) (h : list op) : outcome (db * list out) :=
  match h with
  | [] => Ok (d, [])
  | o :: h' => do r <- step d o; do r' <- run (fst r) h'; Ok (fst r', snd r :: snd r')
  end.
End WithDoubles.
