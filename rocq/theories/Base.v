(** Base.v - outcome of a C function, C strings, and the pieces of libc the
    modelled code calls.  Nothing here is specific to Elliptica; each libc
    function is written out so that no behaviour is assumed. *)
From Coq Require Export List Arith NArith ZArith Lia Bool Ascii String.
Export ListNotations.
Open Scope nat_scope.
Open Scope list_scope.

(** Outcome of running a C function.
    [Ok x]  : returns x;
    [Abort] : the program stops with an error message (Errors/Error0/assert/exit);
    [UB]    : undefined behaviour is executed (null dereference, out-of-bounds
              access, overflowing atoi ...). *)
Inductive outcome (A : Type) : Type :=
| Ok (a : A)
| Abort
| UB.
Arguments Ok {A} a.
Arguments Abort {A}.
Arguments UB {A}.

Definition obind {A B} (x : outcome A) (f : A -> outcome B) : outcome B :=
  match x with Ok a => f a | Abort => Abort | UB => UB end.
Notation "'do' x <- e ; f" := (obind e (fun x => f))
  (at level 200, x pattern, e at level 100, f at level 200, right associativity).

(** A C string without its final NUL. *)
Definition str := list ascii.
Definition S_ (s : string) : str := list_ascii_of_string s.
Arguments S_ s : simpl never.

Definition str_eqb (a b : str) : bool := if list_eq_dec ascii_dec a b then true else false.

Lemma str_eqb_spec a b : reflect (a = b) (str_eqb a b).
Proof. unfold str_eqb; destruct (list_eq_dec ascii_dec a b); constructor; assumption. Qed.
Lemma str_eqb_refl a : str_eqb a a = true.
Proof. destruct (str_eqb_spec a a); congruence. Qed.
Lemma str_eqb_eq a b : str_eqb a b = true <-> a = b.
Proof. destruct (str_eqb_spec a b); split; congruence. Qed.
Lemma str_eqb_neq a b : str_eqb a b = false <-> a <> b.
Proof. destruct (str_eqb_spec a b); split; congruence. Qed.

(** ctype.h in the C locale. *)
Definition code (c : ascii) : N := N_of_ascii c.
Definition is_upper (c : ascii) : bool := (65 <=? code c)%N && (code c <=? 90)%N.
Definition is_lower (c : ascii) : bool := (97 <=? code c)%N && (code c <=? 122)%N.
Definition is_digit (c : ascii) : bool := (48 <=? code c)%N && (code c <=? 57)%N.
(** isspace: space, \t \n \v \f \r *)
Definition is_space (c : ascii) : bool := (code c =? 32)%N || ((9 <=? code c)%N && (code c <=? 13)%N).
Definition toupper (c : ascii) : ascii := if is_lower c then ascii_of_N (code c - 32) else c.
Definition tolower (c : ascii) : ascii := if is_upper c then ascii_of_N (code c + 32) else c.

Definition NUL : ascii := ascii_of_N 0.
Definition NL  : ascii := ascii_of_N 10.
Definition TAB : ascii := ascii_of_N 9.
Definition SP  : ascii := " "%char.

(** strstr: the first occurrence of [pat] in [s], as (text before, text from it on). *)
Fixpoint is_prefix (p s : str) : bool :=
  match p, s with
  | [], _ => true
  | a :: p', b :: s' => if ascii_dec a b then is_prefix p' s' else false
  | _ :: _, [] => false
  end.
Fixpoint strstr (s pat : str) : option (str * str) :=
  if is_prefix pat s then Some ([], s)
  else match s with
       | [] => None
       | c :: s' => match strstr s' pat with
                    | Some (b, r) => Some (c :: b, r)
                    | None => None
                    end
       end.
(** strchr *)
Fixpoint strchr (s : str) (c : ascii) : option (str * str) :=
  match s with
  | [] => None
  | d :: s' => if ascii_dec d c then Some ([], s)
               else match strchr s' c with
                    | Some (b, r) => Some (d :: b, r)
                    | None => None
                    end
  end.

(** "%d" / "%u" : decimal text of a number. *)
Definition digit (d : N) : ascii := ascii_of_N (48 + d).
Fixpoint dec_fuel (f : nat) (n : N) (acc : str) : str :=
  match f with
  | O => acc
  | S f' => let acc' := digit (n mod 10) :: acc in
            if (n / 10 =? 0)%N then acc' else dec_fuel f' (n / 10) acc'
  end.
Definition dec_N (n : N) : str := dec_fuel (S (N.to_nat (N.size n))) n [].
Definition dec_Z (z : Z) : str :=
  match z with
  | Z0 => dec_N 0
  | Zpos p => dec_N (Npos p)
  | Zneg p => "-"%char :: dec_N (Npos p)
  end.

(** atoi: optional blanks, optional sign, digits; a value that does not fit in an
    int is undefined behaviour (C11 7.22.1). *)
Definition INT_MAX : Z := 2147483647.
Definition INT_MIN : Z := -2147483648.
Definition UINT_MAX : Z := 4294967295.
Definition int_range (z : Z) : bool := (INT_MIN <=? z)%Z && (z <=? INT_MAX)%Z.
Fixpoint skip_space (s : str) : str :=
  match s with c :: s' => if is_space c then skip_space s' else s | [] => [] end.
Fixpoint read_digits (s : str) (a : N) : N :=
  match s with
  | c :: s' => if is_digit c then read_digits s' (a * 10 + (code c - 48)) else a
  | [] => a
  end.
Definition atoi (s : str) : outcome Z :=
  let s := skip_space s in
  let z := match s with
           | c :: s' => if ascii_dec c "-"%char then (- Z.of_N (read_digits s' 0))%Z
                        else if ascii_dec c "+"%char then Z.of_N (read_digits s' 0)
                        else Z.of_N (read_digits s 0)
           | [] => 0%Z
           end in
  if int_range z then Ok z else UB.

(** conversion int -> unsigned int *)
Definition to_uint (z : Z) : Z := (z mod 4294967296)%Z.

(** A double is its 64-bit pattern; the model never looks inside.  calloc gives the
    pattern 0 (= 0.0) and DBL_MAX is 0x7FEFFFFFFFFFFFFF. *)
Definition dbl := N.
Definition dbl_zero : dbl := 0%N.
Definition DBL_MAX : dbl := 9218868437227405311%N.

(** ** Lemmas on these pieces *)
Lemma code_lt c : (code c < 256)%N.
Proof. unfold code. destruct c as [[][][][][][][][]]; vm_compute; reflexivity. Qed.

Lemma all_ascii (P : ascii -> bool) :
  forallb (fun n => P (ascii_of_N (N.of_nat n))) (seq 0 256) = true -> forall c, P c = true.
Proof.
  intros H c. rewrite forallb_forall in H.
  specialize (H (N.to_nat (code c))).
  rewrite N2Nat.id in H. unfold code in H at 2. rewrite ascii_N_embedding in H.
  apply H. apply in_seq. pose proof (code_lt c). lia.
Qed.

Lemma ascii_ext (f g : ascii -> ascii) :
  forallb (fun n => if ascii_dec (f (ascii_of_N (N.of_nat n))) (g (ascii_of_N (N.of_nat n))) then true else false)
          (seq 0 256) = true -> forall c, f c = g c.
Proof.
  intros H c. pose proof (all_ascii (fun c => if ascii_dec (f c) (g c) then true else false) H c) as K.
  cbv beta in K. destruct (ascii_dec (f c) (g c)); [assumption|discriminate].
Qed.
Lemma tolower_idem c : tolower (tolower c) = tolower c.
Proof. apply (ascii_ext (fun c => tolower (tolower c)) tolower). vm_compute. reflexivity. Qed.
Lemma toupper_idem c : toupper (toupper c) = toupper c.
Proof. apply (ascii_ext (fun c => toupper (toupper c)) toupper). vm_compute. reflexivity. Qed.
Lemma tolower_toupper c : tolower (toupper c) = tolower c.
Proof. apply (ascii_ext (fun c => tolower (toupper c)) tolower). vm_compute. reflexivity. Qed.
Lemma toupper_tolower c : toupper (tolower c) = toupper c.
Proof. apply (ascii_ext (fun c => toupper (tolower c)) toupper). vm_compute. reflexivity. Qed.
Lemma ascii_impl (P Q : ascii -> bool) :
  forallb (fun n => implb (P (ascii_of_N (N.of_nat n))) (Q (ascii_of_N (N.of_nat n)))) (seq 0 256) = true ->
  forall c, P c = true -> Q c = true.
Proof.
  intros H c HP. pose proof (all_ascii (fun c => implb (P c) (Q c)) H c) as K.
  cbv beta in K. rewrite HP in K. exact K.
Qed.
Definition ch_eqb (a b : ascii) : bool := if ascii_dec a b then true else false.
Lemma ch_eqb_eq a b : ch_eqb a b = true <-> a = b.
Proof. unfold ch_eqb; destruct (ascii_dec a b); split; congruence. Qed.
Lemma tolower_us c : tolower c = "_"%char <-> c = "_"%char.
Proof.
  split; [|intros ->; reflexivity]. rewrite <- !ch_eqb_eq.
  apply (ascii_impl (fun c => ch_eqb (tolower c) "_"%char) (fun c => ch_eqb c "_"%char)).
  vm_compute. reflexivity.
Qed.
Lemma toupper_us c : toupper c = "_"%char <-> c = "_"%char.
Proof.
  split; [|intros ->; reflexivity]. rewrite <- !ch_eqb_eq.
  apply (ascii_impl (fun c => ch_eqb (toupper c) "_"%char) (fun c => ch_eqb c "_"%char)).
  vm_compute. reflexivity.
Qed.

Lemma is_prefix_spec p s : is_prefix p s = true <-> exists r, s = p ++ r.
Proof.
  revert s; induction p as [|a p IH]; intros s; cbn [is_prefix app].
  - split; [intros _; exists s; reflexivity | reflexivity].
  - destruct s as [|b s].
    + split; [discriminate | intros [r E]; discriminate].
    + destruct (ascii_dec a b) as [->|N].
      * rewrite IH. split; intros [r E]; exists r; congruence.
      * split; [discriminate|]. intros [r E]; congruence.
Qed.
Lemma is_prefix_app p r : is_prefix p (p ++ r) = true.
Proof. apply is_prefix_spec; exists r; reflexivity. Qed.

Lemma strstr_app s pat b r : strstr s pat = Some (b, r) -> s = b ++ r /\ is_prefix pat r = true.
Proof.
  revert b r; induction s as [|c s IH]; intros b r; cbn [strstr].
  - destruct (is_prefix pat []) eqn:E; intros H; inversion H; subst. split; [reflexivity|assumption].
  - destruct (is_prefix pat (c :: s)) eqn:E.
    + intros H; inversion H; subst. split; [reflexivity|assumption].
    + destruct (strstr s pat) as [[b' r']|] eqn:E2; intros H; inversion H; subst.
      destruct (IH _ _ eq_refl) as [-> HP]. split; [reflexivity|assumption].
Qed.

Lemma digit_is_digit d : (d < 10)%N -> is_digit (digit d) = true /\ (code (digit d) - 48 = d)%N.
Proof.
  intros H. unfold is_digit, digit, code. rewrite N_ascii_embedding by lia.
  rewrite andb_true_iff, !N.leb_le. lia.
Qed.

Lemma read_dec_fuel f n acc :
  (n < 2 ^ N.of_nat f)%N -> read_digits (dec_fuel f n acc) 0 = read_digits acc n.
Proof.
  revert n acc; induction f as [|f IH]; intros n acc H; cbn [dec_fuel].
  - cbn in H. replace n with 0%N by lia. reflexivity.
  - assert (Hd : (n mod 10 < 10)%N) by (apply N.mod_lt; discriminate).
    destruct (digit_is_digit _ Hd) as [D1 D2].
    pose proof (N.div_mod n 10 ltac:(discriminate)) as E.
    destruct (N.eqb_spec (n / 10) 0) as [Z|NZ].
    + cbn [read_digits]. rewrite D1, D2. f_equal. lia.
    + rewrite IH.
      * cbn [read_digits]. rewrite D1, D2. f_equal. lia.
      * rewrite Nat2N.inj_succ, N.pow_succ_r' in H.
        apply N.div_lt_upper_bound; [discriminate|]. lia.
Qed.

Lemma N_lt_pow2_size n : (n < 2 ^ N.size n)%N.
Proof. apply N.size_gt. Qed.

Lemma read_dec_N n : read_digits (dec_N n) 0 = n.
Proof.
  unfold dec_N. rewrite read_dec_fuel; [reflexivity|].
  rewrite Nat2N.inj_succ, N2Nat.id, N.pow_succ_r'. pose proof (N_lt_pow2_size n). lia.
Qed.

Lemma dec_fuel_digits f n acc :
  Forall (fun c => is_digit c = true) acc -> Forall (fun c => is_digit c = true) (dec_fuel f n acc).
Proof.
  revert n acc; induction f as [|f IH]; intros n acc H; cbn [dec_fuel]; [assumption|].
  assert (Forall (fun c => is_digit c = true) (digit (n mod 10) :: acc)).
  { constructor; [|assumption]. apply digit_is_digit. apply N.mod_lt; discriminate. }
  destruct (N.eqb (n / 10) 0); auto.
Qed.
Lemma dec_N_digits n : Forall (fun c => is_digit c = true) (dec_N n).
Proof. apply dec_fuel_digits. constructor. Qed.

Lemma dec_fuel_nonnil f n acc : f <> 0 -> dec_fuel f n acc <> [].
Proof.
  revert n acc; induction f as [|f IH]; intros n acc H; cbn [dec_fuel]; [congruence|].
  destruct (N.eqb (n / 10) 0); [discriminate|].
  destruct f; [discriminate|]. apply IH. discriminate.
Qed.
Lemma dec_N_nonnil n : dec_N n <> [].
Proof. apply dec_fuel_nonnil. discriminate. Qed.

Lemma is_digit_not c d : is_digit c = true -> is_digit d = false -> c <> d.
Proof. intros H1 H2 ->. congruence. Qed.

Lemma digit_not_space c : is_digit c = true -> is_space c = false.
Proof.
  unfold is_digit, is_space. rewrite andb_true_iff, !N.leb_le. intros [H1 H2].
  apply orb_false_iff. split; [apply N.eqb_neq; lia|].
  apply andb_false_iff. right. apply N.leb_gt. lia.
Qed.

(** Pseti / Pgeti text round trip: atoi(sprintf("%d",z)) = z for every int. *)
Lemma atoi_dec_Z z : int_range z = true -> atoi (dec_Z z) = Ok z.
Proof.
  intros R. unfold atoi.
  assert (K : forall n, skip_space (dec_N n) = dec_N n).
  { intros n. pose proof (dec_N_digits n) as F. destruct (dec_N n) as [|c s]; [reflexivity|].
    cbn [skip_space]. inversion F; subst. rewrite digit_not_space by assumption. reflexivity. }
  assert (K2 : forall n, match dec_N n with
      | c :: s' => if ascii_dec c "-"%char then (- Z.of_N (read_digits s' 0))%Z
                   else if ascii_dec c "+"%char then Z.of_N (read_digits s' 0)
                        else Z.of_N (read_digits (dec_N n) 0)
      | [] => 0%Z end = Z.of_N n).
  { intros n. pose proof (dec_N_digits n) as F. pose proof (dec_N_nonnil n) as NN.
    rewrite read_dec_N.
    destruct (dec_N n) as [|c s]; [congruence|]. inversion F; subst.
    destruct (ascii_dec c "-"%char) as [->|]; [discriminate|].
    destruct (ascii_dec c "+"%char) as [->|]; [discriminate|]. reflexivity. }
  destruct z as [|p|p]; cbn [dec_Z].
  - rewrite K, K2. reflexivity.
  - rewrite K, K2. cbn [Z.of_N]. rewrite R. reflexivity.
  - cbn [skip_space]. change (is_space "-"%char) with false. cbv iota.
    destruct (ascii_dec "-"%char "-"%char) as [_|NE]; [|congruence].
    rewrite read_dec_N. cbn [Z.of_N Z.opp]. rewrite R. reflexivity.
Qed.
