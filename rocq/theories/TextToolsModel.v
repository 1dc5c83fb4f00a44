(** TextToolsModel.v - more of Src/Main/Modules/Text_and_File_Tools/text_tools.c: check_format_s, regex_replace,
    and read_EoS-like list parameters "[v1,v2,...]" (Src/Main/Modules/Physics/EoS/eos_main.c). *)
From Verif Require Import Base TextModel.

(** *** check_format_s, text_tools.c:203-274 (null str gives 0).
    The delimiters are the characters of the format other than '?'; trim[] has MAX_STR_LEN = 400 places, so 400
    delimiters write past it; no delimiter at all dereferences a null pointer. *)
Definition MAX_STR_LEN : nat := 400.
Definition delimits (format : str) : str := filter (fun c => negb (ch_eqb c "?"%char)) format.
Fixpoint walk (s : str) (ds : str) : bool :=
  match ds with
  | [] => true
  | d :: ds' => match strchr s d with None => false | Some (_, r) => walk (tl r) ds' end
  end.
Definition check_format_s (s : option str) (format : str) : outcome bool :=
  match s with
  | None => Ok false
  | Some s =>
    let ds := delimits format in
    if Nat.leb MAX_STR_LEN (List.length ds) then UB
    else match ds with
         | [] => UB
         | d0 :: _ =>
           let l := last ds d0 in
           match strchr s l with
           | None => Ok false
           | Some (b, _) => Ok (walk (b ++ [l]) ds)
           end
         end
  end.

(** *** regex_replace, text_tools.c:390-458.  [rx s] is regexec on s: start and end of the leftmost match.
    The buffer [save] is assumed large enough (the caller's duty, as the comment says). *)
Section Replace.
Variable rx : str -> option (nat * nat).
Variable repl : str.
(** one round of the while loop with the current match, then the next one *)
Fixpoint replace_loop (fuel : nat) (c : str) (so eo : nat) (save : str) : outcome str :=
  match fuel with
  | O => UB                                              (* proved unreachable *)
  | S f =>
    let save1 := save ++ firstn so c ++ repl in
    let c1 := skipn eo c in
    match rx c1 with
    | None => Ok (save1 ++ c1)
    | Some (so', eo') => if Nat.eqb (eo' - so') 0 then Ok (save1 ++ c1) else replace_loop f c1 so' eo' save1
    end
  end.
Definition regex_replace (orig : str) : outcome (bool * str) :=
  match rx orig with
  | None => Ok (false, orig)
  | Some (so, eo) => do r <- replace_loop (S (List.length orig)) orig so eo []; Ok (true, r)
  end.
End Replace.
(** a pattern without special characters: leftmost occurrence *)
Definition rx_literal (p s : str) : option (nat * nat) :=
  match strstr s p with Some (b, _) => Some (List.length b, List.length b + List.length p) | None => None end.
(** "^" followed by such a pattern *)
Definition rx_anchored (p s : str) : option (nat * nat) := if is_prefix p s then Some (0, List.length p) else None.
(** "(p|q)" for two patterns without special characters of which none is a prefix of the other *)
Definition rx_either (p q s : str) : option (nat * nat) :=
  match strstr s p, strstr s q with
  | Some (b, _), Some (b', _) => if Nat.leb (List.length b) (List.length b') then Some (List.length b, List.length b + List.length p)
                                 else Some (List.length b', List.length b' + List.length q)
  | Some (b, _), None => Some (List.length b, List.length b + List.length p)
  | None, Some (b', _) => Some (List.length b', List.length b' + List.length q)
  | None, None => None
  end.

(** *** read_EoS_in_parameter_file, Physics/EoS/eos_main.c:402-443: the texts handed to atof, in order.
    [str] has MAX_STR = 400 places and is filled with strcpy.  A null parameter gives no value. *)
Definition read_EoS_in_parameter_file (par : option str) : outcome (list str) :=
  do ok <- check_format_s par (S_ "[?]");
  match par with
  | None => Ok []                                        (* :404-408, before the format test *)
  | Some par =>
    if negb ok then Abort
    else if Nat.leb MAX_STR_LEN (List.length par) then UB
    else
      let m := cstr par ++ [NUL] in
      let '(m1, sub, save) := sub_s m (Some 0) "["%char "]"%char None in
      let '(m2, tok, save2) := tok_s m1 sub ","%char save in
      match tok with
      | None => Abort
      | Some _ => items_loop (S (S (List.length m))) m2 ","%char tok save2
      end
  end.

(** *** parse_adjust_parameter, Physics/System/sys_tune.c:97-127 (the same text is in Star/star_NS.c:700-729): the three
    texts adjust[0..2]; None = null *)
Definition parse_adjust_parameter (par : str) : outcome (option str * option str * option str) :=
  if negb (strstr_i (Some par) (Some (S_ "adjust("))) && negb (strstr_i (Some par) (Some (S_ "none"))) then Abort
  else if strcmp_i (Some par) (Some (S_ "none")) then Ok (None, None, None)
  else
    let m := cstr par ++ [NUL] in
    let dup m (p : option nat) := match p with Some p => Some (cstr_at m p) | None => None end in
    let '(m1, main_str, save) := sub_s m (Some 0) "("%char ")"%char None in
    let '(m2, t0, save) := tok_s m1 main_str ","%char save in
    let a0 := dup m2 t0 in
    let '(m3, t1, save) := tok_s m2 None ","%char save in
    let a1 := dup m3 t1 in
    let '(m4, t2, save) := tok_s m3 None ","%char save in
    Ok (a0, a1, dup m4 t2).
