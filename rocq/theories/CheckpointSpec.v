(** CheckpointSpec.v - what the checkpoint properties mean, without the reader or the writer. *)
From Verif Require Import Base ParamModel CheckpointModel.

(** The data a run can save (type ranges only): names and values are C strings, doubles are 64-bit patterns,
    counts fit in an unsigned int, and an array parameter has the length its counter says. *)
Definition storable_str (s : option str) : Prop :=
  match s with Some s => ~ In NUL s /\ (N.of_nat (S (List.length s)) < 2 ^ 32)%N | None => True end.
Definition storable_arr (a : option (list dbl)) (n : N) : Prop :=
  match a with
  | Some l => l <> [] /\ n = N.of_nat (List.length l) /\ Forall (fun x => (x < 2 ^ 64)%N) l
  | None => True
  end.
Definition storable_par (q : cpar) : Prop :=
  storable_str (Some (lv (fst q))) /\ storable_str (rv (fst q)) /\ storable_str (rv_ip (fst q)) /\
  (rv_double (fst q) < 2 ^ 64)%N /\ storable_arr (rv_array (fst q)) (snd q) /\ (snd q < 2 ^ 32)%N.

(** grid_kind: one word that does not contain the name of another header entry *)
Definition word_without (k : str) : Prop :=
  k <> [] /\ Forall (fun c => is_space c = false) k /\
  (forall a b, k <> a ++ S_ "number_of_parameters" ++ b) /\
  (forall a b, k <> a ++ S_ "grid_number" ++ b).

(** [name] is one of the words of the list [lst] (checkpoint_fields parameter or similar) *)
Definition is_word_of (name lst : str) : Prop :=
  exists a b, lst = a ++ name ++ b /\
    (forall a' c, a = a' ++ [c] -> is_word c = false) /\
    (forall c b', b = c :: b' -> is_word c = false).

(** a patch that can be saved: field names are distinct C strings and every allocated field has nn values *)
Definition storable_patch (q : N * list fld) : Prop :=
  (fst q < 2 ^ 32)%N /\ (N.of_nat (List.length (snd q)) < 2 ^ 32)%N /\ NoDup (map f_name (snd q)) /\
  Forall (fun x => storable_str (Some (f_name x)) /\ storable_arr (f_v x) (fst q)) (snd q).

(** what field [x] of a patch of the new run holds after reading, when the saved patch was [saved] *)
Definition restored (lst : str) (saved : list fld) (x x' : fld) : Prop :=
  f_name x' = f_name x /\
  (forall v, In (mkFld (f_name x) (Some v)) saved -> is_word_of (f_name x) lst -> f_v x' = Some v) /\
  ((forall v, ~ (In (mkFld (f_name x) (Some v)) saved /\ is_word_of (f_name x) lst)) -> f_v x' = f_v x).
(** the patch [target] of the new run can receive [saved]: its names are distinct and it has every saved field *)
Definition receives (lst : str) (saved target : list fld) : Prop :=
  NoDup (map f_name target) /\
  forall n v, In (mkFld n (Some v)) saved -> is_word_of n lst -> In n (map f_name target).

(** *** crashes.  What checkpoint.dat must hold after a history of attempts: the content of the last attempt that
    ran to its end; the first attempt that dies in the middle, or whose mv fails, is the last one that has any effect,
    because its temporary file stays. *)
Definition completes (a : attempt) : bool := Nat.leb (List.length (a_content a) + 2) (a_steps a) && a_mv a.
Fixpoint expected_dat (now : option bytes) (h : list attempt) : option bytes :=
  match h with
  | [] => now
  | a :: h' => if completes a then expected_dat (Some (a_content a)) h'
               else if Nat.eqb (a_steps a) 0 then expected_dat now h'
               else now
  end.
(** a file that ends in the mark *)
Definition ends_with (f mark : bytes) : Prop := exists x, f = x ++ mark.
