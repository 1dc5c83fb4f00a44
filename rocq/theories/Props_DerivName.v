(** Props_DerivName.v - C170, C171: derivatives asked for by name. *)
From Verif Require Import Base TextModel DerivModel DerivNameProofs.
Open Scope list_scope.
(** C170. The name of the result says which field is derived and in which direction: [dname f s i] puts "d" before f (after a leading underscore), and s and the digit i behind it.  For a field without index
    s = "_D", for one with indices s = "D": psi -> dpsi_D0 -> ddpsi_D0D1, _gamma_U0D1D1 -> _dgamma_U0D1D1D2. *)
Definition digit (i : nat) : ascii := match i with 0 => "0"%char | 1 => "1"%char | _ => "2"%char end.
Definition dname (f s : str) (i : nat) : str :=
  match f with
  | "_"%char :: g => "_"%char :: "d"%char :: g ++ s ++ [digit i]
  | _ => "d"%char :: f ++ s ++ [digit i]
  end.
Lemma dname_eq f s i : dname f s i = DerivNameProofs.dname f s i.
Proof. unfold dname, DerivNameProofs.dname. destruct f as [|c g]; [reflexivity|]. destruct (ch_eqb c "_"%char) eqn:E; [apply ch_eqb_eq in E; subst c; reflexivity|]. destruct c as [[][][][][][][][]]; try reflexivity. discriminate E. Qed.
Theorem C170_named : forall f i, i < 3 -> List.length f < 96 ->
  parse (dname f (S_ "_D") i) = Ok (f, i) /\ (f <> [] -> last f NUL <> "_"%char -> parse (dname f (S_ "D") i) = Ok (f, i)).
Proof.
  intros f i I L. assert (M : MAX_STR_LEN = 100) by reflexivity. split; [rewrite dname_eq; apply (parse_first f "D"%char i I); rewrite M; lia|].
  intros N U. rewrite dname_eq. apply (parse_next f "D"%char i I N); [left; exact U|rewrite M; lia].
Qed.
Print Assumptions C170_named.
(** hence no name stands for the derivatives of two fields, or for two directions *)
Theorem C170_one_meaning : forall f g s t i j, In s [S_ "_D"; S_ "D"] -> In t [S_ "_D"; S_ "D"] -> i < 3 -> j < 3 -> List.length f < 96 -> List.length g < 96 ->
  f <> [] -> g <> [] -> last f NUL <> "_"%char -> last g NUL <> "_"%char -> dname f s i = dname g t j -> f = g /\ i = j.
Proof.
  intros f g s t i j S T I J Lf Lg Nf Ng Uf Ug E. destruct (C170_named f i I Lf) as [F1 F2]. destruct (C170_named g j J Lg) as [G1 G2]. specialize (F2 Nf Uf). specialize (G2 Ng Ug).
  assert (A : parse (dname f s i) = Ok (f, i)) by (destruct S as [<-|[<-|[]]]; assumption). assert (B : parse (dname g t j) = Ok (g, j)) by (destruct T as [<-|[<-|[]]]; assumption).
  rewrite E, B in A. injection A as <- <-. auto.
Qed.
Print Assumptions C170_one_meaning.
(** what is accepted never names itself as its own source, and the program stops for names shorter than 4 or without a final 0, 1, 2; names of 100 characters overrun the buffer *)
Theorem C170_safe : forall n, (forall f i, parse n = Ok (f, i) -> i < 3 /\ List.length f + 3 <= List.length n < 100) /\ (List.length n < 4 -> parse n = Abort) /\ (100 <= List.length n -> parse n = UB).
Proof.
  intros n. assert (M : MAX_STR_LEN = 100) by reflexivity. split; [|split].
  - intros f i E. pose proof (parse_shorter n f i E). apply parse_inv in E. destruct E as (I & L & _). rewrite M in L. lia.
  - intros L. unfold parse. cbv zeta. rewrite M. replace (Nat.ltb (List.length n) 100) with true by (symmetry; apply Nat.ltb_lt; lia). replace (Nat.ltb 3 (List.length n)) with false by (symmetry; apply Nat.ltb_ge; lia). reflexivity.
  - intros L. unfold parse. cbv zeta. rewrite M. replace (Nat.ltb (List.length n) 100) with false by (symmetry; apply Nat.ltb_ge; lia). reflexivity.
Qed.
Print Assumptions C170_safe.
(** The kind of the last index is not looked at: upper indices and any other character count as derivatives. *)
Theorem C170_loose_refuted : parse (S_ "dpsi_U0") = Ok (S_ "psi", 0) /\ parse (S_ "dpsi_2") = Ok (S_ "psi", 2) /\ parse (S_ "density0") = Ok (S_ "ensit", 0) /\ parse (S_ "drift_vel_D1") = Ok (S_ "rift_vel", 1).
Proof. repeat split; reflexivity. Qed.
Print Assumptions C170_loose_refuted.
Example C170_ex : dname (S_ "psi") (S_ "_D") 0 = S_ "dpsi_D0" /\ parse (S_ "ddpsi_D0D1") = Ok (S_ "dpsi_D0", 1) /\ dname (S_ "_gamma_U0D1D1") (S_ "D") 2 = S_ "_dgamma_U0D1D1D2" /\
  parse (S_ "_dgamma_U0D1D1D2") = Ok (S_ "_gamma_U0D1D1", 2) /\ parse (S_ "psi_D0") = Abort.
Proof. repeat split; reflexivity. Qed.

(** C171. A comma separated list of expressions: every field matched by one is set to the derivative its name says, in the order of the list and, for one expression, of the patch's fields.  [calls]: that sequence.
    If no source is written after it was used, every matched field is the derivative of the final value of its source, and no other field changes. *)
Theorem C171_consistent : forall (V : Type) (D : nat -> V -> V) search names par st st' regs, read_separated_items par ","%char = Ok regs ->
  partial_derivative_regex V D search names par st = Ok st' -> let calls := flat_map (fun r => filter (search r) names) regs in
  (forall m, ~ In m calls -> st' m = st m) /\
  ((forall a n b f i, calls = a ++ n :: b -> parse n = Ok (f, i) -> ~ In f b) ->
   forall n, In n calls -> exists f i v, parse n = Ok (f, i) /\ In f names /\ st' f = Some v /\ st' n = Some (D i v)).
Proof.
  intros V D search names par st st' regs R E calls. unfold partial_derivative_regex in E. rewrite R in E. cbn [obind] in E.
  rewrite (regexes_each V D search) in E by (eapply regexes_space, E). split; [apply (each_others V D names calls st st' E)|]. intros O. exact (each_consistent V D search names calls st st' E O).
Qed.
Print Assumptions C171_consistent.
(** it succeeds exactly if no expression has a space and each matched name has a source that is a field with values, given before or computed earlier *)
Theorem C171_success : forall (V : Type) (D : nat -> V -> V) search names par st regs, read_separated_items par ","%char = Ok regs -> let calls := flat_map (fun r => filter (search r) names) regs in
  (forall r, In r regs -> ~ In " "%char r) ->
  ((exists st', partial_derivative_regex V D search names par st = Ok st') <->
   (forall a n b, calls = a ++ n :: b -> exists f i, parse n = Ok (f, i) /\ In f names /\ (st f <> None \/ In f a))).
Proof.
  intros V D search names par st regs R calls S. unfold partial_derivative_regex. rewrite R. cbn [obind]. rewrite (regexes_each V D search) by exact S. apply each_ok.
Qed.
Print Assumptions C171_success.
(** first all first, then all second derivatives, as the callers do, is always consistent: it is enough that the sources of each expression's fields are not matched by this or a later expression *)
Theorem C171_stages : forall (V : Type) (D : nat -> V -> V) search names par st st' regs, read_separated_items par ","%char = Ok regs -> partial_derivative_regex V D search names par st = Ok st' ->
  (forall before r after n f i q, regs = before ++ r :: after -> In n names -> search r n = true -> parse n = Ok (f, i) -> In q (r :: after) -> search q f = false) ->
  forall r n, In r regs -> In n names -> search r n = true -> exists f i v, parse n = Ok (f, i) /\ st' f = Some v /\ st' n = Some (D i v).
Proof.
  intros V D search names par st st' regs R E H r n Ir In' M. destruct (C171_consistent V D search names par st st' regs R E) as [_ K]. edestruct K as (f & i & v & P & _ & F & G).
  2:{ apply in_flat_map. exists r. split; [exact Ir|]. apply filter_In. split; eassumption. } 2: eauto 8.
  clear - H. intros a m b f i Q P I.
  (* m is matched by some expression r0; b lies in r0 and the later ones *)
  assert (X : forall l a b m, flat_map (fun r => filter (search r) names) l = a ++ m :: b -> exists p r0 s, l = p ++ r0 :: s /\ In m names /\ search r0 m = true /\ forall x, In x b -> exists q, In q (r0 :: s) /\ search q x = true).
  { clear. induction l as [|r l IH]; intros a b m E; cbn [flat_map] in E; [destruct a; discriminate|].
    assert (C : forall u w : list str, u ++ w = a ++ m :: b -> (exists z, u = a ++ m :: z /\ b = z ++ w) \/ (exists z, a = u ++ z /\ w = z ++ m :: b)).
    { clear. induction a as [|y a IH]; intros u w E; destruct u as [|z u]; cbn [app] in *; subst.
      - right. exists []. auto.
      - injection E as -> <-. left. exists u. auto.
      - right. exists (y :: a). auto.
      - injection E as -> E. destruct (IH u w E) as [(t & -> & ->)|(t & -> & ->)]; [left; exists t; auto|right; exists t; auto]. }
    destruct (C _ _ E) as [(z & U & ->)|(z & -> & W)].
    - exists [], r, l. split; [reflexivity|]. assert (F : In m (filter (search r) names)) by (rewrite U; apply in_or_app; right; left; reflexivity). apply filter_In in F. destruct F as [F1 F2].
      split; [exact F1|]. split; [exact F2|]. intros x I. apply in_app_or in I. destruct I as [I|I].
      + exists r. split; [left; reflexivity|]. assert (F : In x (filter (search r) names)) by (rewrite U; apply in_or_app; right; right; exact I). apply filter_In in F. tauto.
      + apply in_flat_map in I. destruct I as (q & J & I). apply filter_In in I. exists q. split; [right; exact J|tauto].
    - destruct (IH _ _ _ W) as (p & r0 & s & -> & A & B & D). exists (r :: p), r0, s. auto. }
  destruct (X _ _ _ _ Q) as (p & r0 & s & E & A & B & D). destruct (D f I) as (q & J & S). rewrite (H p r0 s m f i q E A B P J) in S. discriminate.
Qed.
Print Assumptions C171_stages.
(** An expression that matches first and second derivatives ("psi_D.+" without the anchor) may leave second derivatives of old values and report no error. *)
Theorem C171_stale_refuted : exists (names : list str) (search : str -> str -> bool) (st st' : str -> option Z), let D (i : nat) (v : Z) := (v * 10 + Z.of_nat i)%Z in
  partial_derivative_regex Z D search names (S_ "psi_D.+") st = Ok st' /\ st' (S_ "dpsi_D0") = Some 70%Z /\ st' (S_ "ddpsi_D0D1") = Some 11%Z.
Proof.
  exists [S_ "psi"; S_ "ddpsi_D0D1"; S_ "dpsi_D0"], (fun _ n => negb (str_eqb n (S_ "psi"))), (fun n => if str_eqb n (S_ "psi") then Some 7%Z else if str_eqb n (S_ "dpsi_D0") then Some 1%Z else None).
  eexists. split; [vm_compute; reflexivity|]. split; reflexivity.
Qed.
Print Assumptions C171_stale_refuted.
Example C171_ex : exists st', partial_derivative_regex Z (fun i v => (v * 10 + Z.of_nat i)%Z) (fun r n => str_eqb (firstn (List.length r) n) r) [S_ "psi"; S_ "ddpsi_D0D1"; S_ "dpsi_D0"; S_ "dpsi_D1"] (S_ "dpsi_D,ddpsi_D")
    (fun n => if str_eqb n (S_ "psi") then Some 7%Z else None) = Ok st' /\ st' (S_ "dpsi_D1") = Some 71%Z /\ st' (S_ "ddpsi_D0D1") = Some 701%Z /\ st' (S_ "psi") = Some 7%Z.
Proof. eexists. split; [vm_compute; reflexivity|]. repeat split; reflexivity. Qed.
