(** CheckpointModel.v - the checkpoint file.
    Sources: /repo/Src/Main/Modules/Checkpoint/checkpoint.c (line numbers below are of this file),
    checkpoint.h, and the FWrite*/FRead* macros of Includes/text_and_file_tools_lib.h:10-41.
    A file is its list of bytes.  Uint is 4 bytes and double 8 bytes, little endian (x86-64, the only
    platform the binary file is read back on is the one that wrote it).  The asserts are active: no build
    file of the repository defines NDEBUG. *)
From Verif Require Import Base ParamModel TextModel.

Definition bytes := str.
Fixpoint le (k : nat) (n : N) : bytes :=
  match k with
  | O => []
  | S k' => ascii_of_N (n mod 256) :: le k' (n / 256)
  end.
Fixpoint unle (b : bytes) : N :=
  match b with
  | [] => 0
  | c :: b' => (N_of_ascii c + 256 * unle b')%N
  end.
Definition sizeof_uint : nat := 4.
Definition sizeof_double : nat := 8.

(** (Uint)(y): conversion of a size to unsigned int *)
Definition to_size (n : nat) : N := (N.of_nat n mod 2 ^ 32)%N.

(** *** FWriteP_bin on a string: text_and_file_tools_lib.h:10-18 with y = strlen(x)+1 *)
Definition wP_str (s : option str) : bytes :=
  match s with
  | Some s => le sizeof_uint (to_size (S (List.length s))) ++ s ++ [NUL]
  | None => le sizeof_uint 0
  end.
(** on an array of doubles with y = n; fwrite of 0 elements returns 0 and the assert fails *)
Definition wP_arr (a : option (list dbl)) (n : N) : outcome bytes :=
  match a with
  | Some l => if (n =? 0)%N then Abort
              else if Nat.eqb (List.length l) (N.to_nat n)
                   then Ok (le sizeof_uint n ++ List.concat (map (le sizeof_double) l))
                   else UB (* reads outside the array *)
  | None => Ok (le sizeof_uint 0)
  end.
(** FWriteV_bin(x,1), :21-26 *)
Definition wV_dbl (x : dbl) : bytes := le sizeof_uint 1 ++ le sizeof_double x.
Definition wV_uint (u : N) : bytes := le sizeof_uint 1 ++ le sizeof_uint u.

(** *** fread(x, size, cnt, file): number of complete items read, and the position after it.
    A short read consumes what is left. *)
Definition fread (f : bytes) (size cnt : nat) : list bytes * bytes :=
  let k := Nat.min cnt (List.length f / size) in
  (map (fun i => firstn size (skipn (i * size) f)) (seq 0 k),
   if Nat.eqb k cnt then skipn (cnt * size) f else []).
(** assert(fread(&SIZE_,sizeof(SIZE_),1,file)) *)
Definition rSize (f : bytes) : outcome (N * bytes) :=
  match fread f sizeof_uint 1 with
  | (x :: _, f') => Ok (unle x, f')
  | ([], _) => Abort
  end.
(** FReadP_bin, :29-35: the block has SIZE_ items; items that the file no longer has stay 0 (calloc).
    For a string: the C string in the block; a block without NUL is read past its end when it is used. *)
Definition rP_block (f : bytes) (size : nat) : outcome (option (list bytes) * bytes) :=
  do r <- rSize f;
  let (n, f1) := r in
  if (n =? 0)%N then Ok (None, f1)
  else match fread f1 size (N.to_nat n) with
       | ([], _) => Abort
       | (l, f2) => Ok (Some (l ++ repeat (repeat NUL size) (N.to_nat n - List.length l)), f2)
       end.
Definition rP_str (f : bytes) : outcome (option str * bytes) :=
  do r <- rP_block f 1;
  match r with
  | (None, f') => Ok (None, f')
  | (Some l, f') => let b := List.concat l in
                    if in_dec ascii_dec NUL b then Ok (Some (cstr b), f') else UB
  end.
Definition rP_arr (f : bytes) : outcome (option (list dbl) * bytes) :=
  do r <- rP_block f sizeof_double;
  match r with
  | (None, f') => Ok (None, f')
  | (Some l, f') => Ok (Some (map unle l), f')
  end.
(** FReadV_bin, :38-41, for one variable of [size] bytes: a count above 1 writes past the variable *)
Definition rV (f : bytes) (size : nat) : outcome (N * bytes) :=
  do r <- rSize f;
  let (n, f1) := r in
  match fread f1 size (N.to_nat n) with
  | ([], _) => Abort
  | ([x], f2) => Ok (unle x, f2)
  | (_ :: _ :: _, _) => UB
  end.

(** *** parameters.  The struct field rv_n is not in [param]; it is carried beside it. *)
Definition cpar : Type := param * N.
Definition b2N (b : bool) : N := if b then 1%N else 0%N.
(** one round of the loop of write_parameters, :191-203 *)
Definition w_param (q : cpar) : outcome bytes :=
  let (p, n) := q in
  do a <- wP_arr (rv_array p) n;
  Ok (wP_str (Some (lv p)) ++ wP_str (rv p) ++ wP_str (rv_ip p) ++ wV_dbl (rv_double p) ++ a ++
      wV_uint n ++ wV_uint (b2N (iterative p)) ++ wV_uint (b2N (double_flg p))).
Fixpoint oconcat {A} (f : A -> outcome bytes) (l : list A) : outcome bytes :=
  match l with
  | [] => Ok []
  | a :: l' => do b <- f a; do bs <- oconcat f l'; Ok (b ++ bs)
  end.
Definition PARAM_HEADER := S_ "#{PARAM#".
Definition PARAM_FOOTER := S_ "#}PARAM#".
Definition FIELD_HEADER := S_ "#{FIELD#".
Definition FIELD_FOOTER := S_ "#}FIELD#".
Definition ALLOC_HEADER := S_ "#{ALLOCATION#".
Definition ALLOC_FOOTER := S_ "#}ALLOCATION#".
Definition END_MSG := NL :: S_ "#checkpoint_file_completed#" ++ [NL].
(** write_parameters, :166-211 *)
Definition write_parameters (ps : list cpar) : outcome bytes :=
  do b <- oconcat w_param ps;
  Ok (wP_str (Some PARAM_HEADER) ++ b ++ wP_str (Some PARAM_FOOTER)).
(** the reader of one parameter, :547-557 (and :483-493); lv null is used by strcmp later *)
Definition N2b (n : N) : bool := negb (n =? 0)%N.
Definition r_param (f : bytes) : outcome (cpar * bytes) :=
  do r1 <- rP_str f;
  do r2 <- rP_str (snd r1);
  do r3 <- rP_str (snd r2);
  do r4 <- rV (snd r3) sizeof_double;
  do r5 <- rP_arr (snd r4);
  do r6 <- rV (snd r5) sizeof_uint;
  do r7 <- rV (snd r6) sizeof_uint;
  do r8 <- rV (snd r7) sizeof_uint;
  match fst r1 with
  | None => UB
  | Some l => Ok (({| lv := l; rv := fst r2; rv_ip := fst r3; rv_array := fst r5; rv_double := fst r4;
                      double_flg := N2b (fst r8); iterative := N2b (fst r7) |}, fst r6), snd r8)
  end.
Fixpoint r_params (k : nat) (f : bytes) : outcome (list cpar * bytes) :=
  match k with
  | O => Ok ([], f)
  | S k' => do r <- r_param f; do r' <- r_params k' (snd r); Ok (fst r :: fst r', snd r')
  end.
(** FReadP_bin(match_str); if (strcmp(match_str,TITLE)) Error0(..) *)
Definition r_title (t : str) (f : bytes) : outcome bytes :=
  do r <- rP_str f;
  match fst r with
  | None => UB
  | Some s => if str_eqb s t then Ok (snd r) else Abort
  end.
(** read_parameters, :528-586, before incorporate_modified_checkpoint_par *)
Definition read_parameters (npar : nat) (f : bytes) : outcome (list cpar * bytes) :=
  do f1 <- r_title PARAM_HEADER f;
  do r <- r_params npar f1;
  do f2 <- r_title PARAM_FOOTER (snd r);
  Ok (fst r, f2).

(** *** write_header, :122-147: text.  kind = Pgets("grid_kind") *)
Definition w_header (np gn : N) (kind : str) : bytes :=
  ALLOC_HEADER ++ [NL] ++ S_ "number_of_parameters=" ++ dec_N np ++ [NL] ++
  S_ "grid_number=" ++ dec_N gn ++ [NL] ++ S_ "grid_kind=" ++ kind ++ [NL] ++ ALLOC_FOOTER ++ [NL].
(** fscanf(file,"%s",line): skip white space, take the next word; at the end of the file nothing is stored *)
Fixpoint skip_ws (f : bytes) : bytes :=
  match f with c :: f' => if is_space c then skip_ws f' else f | [] => [] end.
Fixpoint take_word (f : bytes) : str * bytes :=
  match f with
  | c :: f' => if is_space c then ([], f) else let (w, r) := take_word f' in (c :: w, r)
  | [] => ([], [])
  end.
Definition scan_word (f : bytes) (line : str) : str * bytes :=
  match skip_ws f with
  | [] => (line, [])
  | g => take_word g
  end.
Record header := mkHeader { h_npar : Z; h_gn : Z; h_kind : option str }.
Definition contains_b (s pat : str) : bool := match strstr s pat with Some _ => true | None => false end.
(** the loop of read_header, :296-331; the loop has no end-of-file test: out of fuel = it runs for ever,
    reported as UB here (the theorems exclude it) *)
Fixpoint hdr_loop (fuel : nat) (f : bytes) (line : str) (h : header) : outcome (header * bytes) :=
  match fuel with
  | O => UB
  | S k =>
    if str_eqb line ALLOC_FOOTER then Ok (h, f)
    else
      let (line, f) := scan_word f line in
      if str_eqb line ALLOC_FOOTER then Ok (h, f)
      else match strstr line (S_ "=") with
           | None => Abort
           | Some (_, v0) =>
             let v := tl v0 in
             if contains_b line (S_ "number_of_parameters") then
               do n <- atoi v; hdr_loop k f line (mkHeader (to_uint n) (h_gn h) (h_kind h))
             else if contains_b line (S_ "grid_number") then
               do n <- atoi v; hdr_loop k f line (mkHeader (h_npar h) (to_uint n) (h_kind h))
             else if contains_b line (S_ "grid_kind") then
               hdr_loop k f line (mkHeader (h_npar h) (h_gn h) (Some v))
             else Abort
           end
  end.
(** read_header, :280-335 *)
Definition read_header (f : bytes) : outcome (header * bytes) :=
  let (line, f1) := scan_word f [] in
  if str_eqb line ALLOC_HEADER then
    do r <- hdr_loop 5 f1 line (mkHeader 0 0 None);
    Ok (fst r, tl (snd r))                                   (* fseek(ftell+1), :333 *)
  else Abort.

(** *** fields.  A patch is the list of its fields; v = None: null pointer *)
Record fld := mkFld { f_name : str; f_v : option (list dbl) }.
(** regex_search("\\b" name "\\b", list), :246-247, for a name made of word characters (the only names the
    code gives to fields): an occurrence of the name that is not inside a longer word. *)
Definition is_word (c : ascii) : bool :=
  is_upper c || is_lower c || is_digit c || ch_eqb c "_"%char.
Definition word_start (s : str) : bool := match s with c :: _ => is_word c | [] => false end.
Fixpoint bsearch (prev_word : bool) (name s : str) : bool :=
  (negb prev_word && is_prefix name s && negb (word_start (skipn (List.length name) s)))
  || match s with
     | [] => false
     | c :: s' => bsearch (is_word c) name s'
     end.
Definition listed (name lst : str) : bool := bsearch false name lst.
Definition selected (lst : str) (x : fld) : bool :=
  match f_v x with Some _ => listed (f_name x) lst | None => false end.
(** the body of the loop over patches, :236-268; nn = patch->nn *)
Definition w_field (nn : N) (x : fld) : outcome bytes :=
  do a <- wP_arr (f_v x) nn;
  Ok (wP_str (Some (f_name x)) ++ a).
Definition w_patch (lst : str) (q : N * list fld) : outcome bytes :=
  let sel := filter (selected lst) (snd q) in
  do b <- oconcat (w_field (fst q)) sel;
  Ok (wV_uint (to_size (List.length sel)) ++ b).
(** write_fields, :214-275 *)
Definition write_fields (lst : str) (ps : list (N * list fld)) : outcome bytes :=
  do b <- oconcat (w_patch lst) ps;
  Ok (wP_str (Some FIELD_HEADER) ++ b ++ wP_str (Some FIELD_FOOTER)).

(** field = patch->fields[Ind(name)]; field->v = v; Ind aborts for an unknown name (field.c LookUpField_E) *)
Fixpoint set_field (name : str) (v : option (list dbl)) (l : list fld) : outcome (list fld) :=
  match l with
  | [] => Abort
  | x :: l' => if str_eqb (f_name x) name then Ok (mkFld (f_name x) v :: l')
               else do r <- set_field name v l'; Ok (x :: r)
  end.
Fixpoint r_fields (k : nat) (l : list fld) (f : bytes) : outcome (list fld * bytes) :=
  match k with
  | O => Ok (l, f)
  | S k' =>
    do r1 <- rP_str f;
    do r2 <- rP_arr (snd r1);
    match fst r1 with
    | None => UB
    | Some name => do l' <- set_field name (fst r2) l; r_fields k' l' (snd r2)
    end
  end.
Fixpoint r_patches (ps : list (list fld)) (f : bytes) : outcome (list (list fld) * bytes) :=
  match ps with
  | [] => Ok ([], f)
  | l :: ps' =>
    do c <- rV f sizeof_uint;
    do r <- r_fields (N.to_nat (fst c)) l (snd c);
    do r' <- r_patches ps' (snd r);
    Ok (fst r :: fst r', snd r')
  end.
(** read_fields_from_checkpoint_file, :686-739 *)
Definition read_fields (ps : list (list fld)) (f : bytes) : outcome (list (list fld) * bytes) :=
  do f1 <- r_title FIELD_HEADER f;
  do r <- r_patches ps f1;
  do f2 <- r_title FIELD_FOOTER (snd r);
  Ok (fst r, f2).

(** *** the whole file: write_checkpoint, :76-92, in the order of the calls *)
Definition end_mark : bytes := wP_str (Some END_MSG).
Definition checkpoint_bytes (ps : list cpar) (gn : N) (kind lst : str) (patches : list (N * list fld)) : outcome bytes :=
  do b1 <- write_parameters ps;
  do b2 <- write_fields lst patches;
  Ok (w_header (N.of_nat (List.length ps)) gn kind ++ b1 ++ b2 ++ end_mark).
(** open_checkpoint_file_then_read_grid_and_params + read_fields_from_checkpoint_file, without the merge of
    the modified parameters (its own model below) and without creating the patches (done by the project) *)
Definition read_checkpoint (f : bytes) (patches : list (list fld))
  : outcome (header * list cpar * list (list fld) * bytes) :=
  do h <- read_header f;
  do p <- read_parameters (Z.to_nat (h_npar (fst h))) (snd h);
  do x <- read_fields patches (snd p);
  Ok (fst h, fst p, fst x, snd x).

(** *** is_checkpoint_sound, :98-119.  fseek(-len,SEEK_END) fails on a shorter file (the position stays 0) and the
    fread of one item of len bytes then reads no item: assert.  msg[] is not initialised beyond the len bytes
    read: without a NUL among them strstr reads uninitialised memory. *)
Definition is_checkpoint_sound (f : bytes) : outcome bool :=
  let len := S (List.length END_MSG) in
  if Nat.ltb (List.length f) len then Abort
  else
    let msg := skipn (List.length f - len) f in
    if in_dec ascii_dec NUL msg then Ok (contains_b (cstr msg) END_MSG) else UB.

(** *** modified parameters.
    find_and_save_modified_checkpoint_pars, :337-384: the parameters of the parameter file whose name contains
    "modify:", with the name cut after the first ':' *)
Definition is_modified (p : param) : bool := strstr_i (Some (lv p)) (Some (S_ "modify:")).
Definition set_lv (n : str) (p : param) : param :=
  {| lv := n; rv := rv p; rv_ip := rv_ip p; rv_array := rv_array p;
     rv_double := rv_double p; double_flg := double_flg p; iterative := iterative p |}.
Definition trim_prefix (p : param) : param :=
  match strchr (lv p) ":"%char with
  | Some (_, r) => set_lv (tl r) p
  | None => p (* cannot happen: the name contains "modify:" *)
  end.
Definition modified_pars (d : db) : list param := map trim_prefix (filter is_modified (pars d)).

(** the inner for of incorporate_modified_checkpoint_par, :619-647: the first modified parameter of that name.
    The values are moved out: the modified entry keeps null afterwards. *)
Definition clear_moved (m : param) : param :=
  {| lv := lv m; rv := None; rv_ip := None; rv_array := rv_array m;
     rv_double := rv_double m; double_flg := double_flg m; iterative := iterative m |}.
Definition overridden (p m : param) : param :=
  {| lv := lv p; rv := rv m; rv_ip := rv_ip m; rv_array := rv_array p;
     rv_double := 0%N; double_flg := false; iterative := iterative m |}.
Fixpoint override (p : param) (ms : list param) : outcome (option (param * list param)) :=
  match ms with
  | [] => Ok None
  | m :: ms' =>
    if strcmp_i (Some (lv p)) (Some (lv m)) then
      match rv_array p with
      | Some _ => Abort                                     (* assert, :627 *)
      | None => Ok (Some (overridden p m, clear_moved m :: ms'))
      end
    else do r <- override p ms';
         Ok (match r with Some (p', l) => Some (p', m :: l) | None => None end)
  end.
(** the while loop over the database, :612-652 *)
Fixpoint override_all (nfound : nat) (l : list param) (ms : list param) : outcome (list param * list param) :=
  match l with
  | [] => Ok ([], ms)
  | p :: l' =>
    if Nat.ltb nfound (List.length ms) then
      do r <- override p ms;
      match r with
      | Some (p', ms') => do r' <- override_all (S nfound) l' ms'; Ok (p' :: fst r', snd r')
      | None => do r' <- override_all nfound l' ms; Ok (p :: fst r', snd r')
      end
    else Ok (l, ms)
  end.
(** the for loop that adds the new ones, :655-665 *)
Fixpoint add_new (d : db) (ms : list param) : outcome db :=
  match ms with
  | [] => Ok d
  | m :: ms' =>
    match get_parameter d (lv m) with
    | Some _ => add_new d ms'
    | None => do d' <- add_parameter d (lv m) (rv m); add_new d' ms'
    end
  end.
(** incorporate_modified_checkpoint_par, :600-669 *)
Definition incorporate (d : db) (ms : list param) : outcome db :=
  let d1 := free_parameter d (S_ "total_iterations_ip") in
  do r <- override_all 0 (pars d1) ms;
  let d2 := match d1 with None => None | Some _ => Some (fst r) end in
  do d3 <- add_new d2 (snd r);
  do t <- total_iterations d3;
  Ok (snd t).

(** *** the two files of the output directory, for crash behaviour.
    write_checkpoint :76-92: the test of :132, then fopen "w", appends of the pieces by several fopen "a", and
    finally mv.  stdio buffers: at a crash the temporary file holds some prefix of what was written. *)
Record disk := mkDisk { dat : option bytes; temp : option bytes }.
(** [WRename ok]: mv; when it fails (ok = false) nothing moves, and shell_command ignores its status
    (Modules/Utilities/useful_functions.c:533-542) *)
Inductive wstep := WOpen | WByte (c : ascii) | WRename (ok : bool).
Definition wstep_run (d : disk) (s : wstep) : disk :=
  match s with
  | WOpen => mkDisk (dat d) (Some [])
  | WByte c => mkDisk (dat d) (match temp d with Some b => Some (b ++ [c]) | None => Some [c] end)
  | WRename true => match temp d with Some b => mkDisk (Some b) None | None => d end
  | WRename false => d
  end.
(** one call of write_checkpoint: the content it writes, whether its mv works, and after how many steps the process
    dies (more than there are = it does not die) *)
Record attempt := mkAttempt { a_content : bytes; a_mv : bool; a_steps : nat }.
(** the steps of one call; nothing but the error exit when the temporary file exists *)
Definition write_steps (d : disk) (a : attempt) : list wstep :=
  match temp d with
  | Some _ => []                                             (* Error0("File already exists."), :132-133 *)
  | None => WOpen :: map WByte (a_content a) ++ [WRename (a_mv a)]
  end.
Definition run_attempt (d : disk) (a : attempt) : disk :=
  fold_left wstep_run (firstn (a_steps a) (write_steps d a)) d.
