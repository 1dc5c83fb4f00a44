(** Props_Transfer.v - C172: fields carried to a new grid. *)
From Verif Require Import Base TextModel TransferModel TransferProofs.
Open Scope list_scope.
(** C172. Fields carried to a new grid.  The search of the patches and the interpolation are arbitrary.  [used x k X]: position x is looked up in old patch k at the coordinates X: those of x in the first patch found, or the
    nearest ones if there is none.  By interpolation every named field of every new patch has at each node the interpolant of the old field there; all else is as before. *)
Theorem C172_interpolate : forall (pos crd V : Type) find X_of force interp (og ng ng' : list (patch pos V)) names,
  let used x (k : nat) (X : crd) := (find x = Some k /\ X = X_of k x) \/ (find x = None /\ force x = Some (k, X)) in
  interpolate pos crd V find X_of force interp og ng names = Ok ng' -> List.length ng' = List.length ng /\
  forall j p, nth_error ng j = Some p -> exists p', nth_error ng' j = Some p' /\ p_name _ _ p' = p_name _ _ p /\ p_nodes _ _ p' = p_nodes _ _ p /\ (forall f, ~ In f names -> p_fld _ _ p' f = p_fld _ _ p f) /\
   forall f, In f names -> exists vs, p_fld _ _ p' f = Some (Some vs) /\
     Forall2 (fun x y => exists k X o v, used x k X /\ nth_error og k = Some o /\ p_fld _ _ o f = Some (Some v) /\ y = interp k v X) (p_nodes _ _ p) vs.
Proof.
  intros pos crd V find X_of force interp og ng ng' names used E. destruct (interp_done pos crd V find X_of force interp og ng names ng' E) as [L K]. split; [exact L|].
  intros j p J. destruct (K j p J) as (p' & A & (B & C) & D & F). exists p'. auto 6.
Qed.
Print Assumptions C172_interpolate.
(** it succeeds exactly if every node finds a patch, every old patch has values of each named field and every new patch has the field *)
Theorem C172_success : forall (pos crd V : Type) find X_of force interp (og ng : list (patch pos V)) names,
  let used x (k : nat) (X : crd) := (find x = Some k /\ X = X_of k x) \/ (find x = None /\ force x = Some (k, X)) in
  (forall x k X, used x k X -> k < List.length og) ->
  ((exists r, interpolate pos crd V find X_of force interp og ng names = Ok r) <->
   (forall p x, In p ng -> In x (p_nodes _ _ p) -> exists k X, used x k X) /\
   (forall f, In f names -> (forall o, In o og -> exists v, p_fld _ _ o f = Some (Some v)) /\ (forall p, In p ng -> p_fld _ _ p f <> None))).
Proof. intros pos crd V find X_of force interp og ng names used. exact (interp_some pos crd V find X_of force interp og ng names). Qed.
Print Assumptions C172_success.
(** A function resolved by the old grid (its interpolants in each patch take its values) is carried over exactly to all nodes that lie in the old grid, whichever patches are found. *)
Theorem C172_exact : forall (pos crd V : Type) find X_of force interp (og ng ng' : list (patch pos V)) names f (g : pos -> V), In f names ->
  interpolate pos crd V find X_of force interp og ng names = Ok ng' ->
  (forall k o v x, nth_error og k = Some o -> p_fld _ _ o f = Some (Some v) -> find x = Some k -> interp k v (X_of k x) = g x) ->
  (forall p x, In p ng -> In x (p_nodes _ _ p) -> find x <> None) ->
  forall j p', nth_error ng' j = Some p' -> p_fld _ _ p' f = Some (Some (map g (p_nodes _ _ p'))).
Proof.
  intros pos crd V find X_of force interp og ng ng' names f g I E R N j p' J. destruct (C172_interpolate pos crd V find X_of force interp og ng ng' names E) as [L K].
  destruct (nth_error ng j) as [p|] eqn:P; [|apply nth_error_None in P; (assert (j < List.length ng') by (apply nth_error_Some; congruence); lia)].
  destruct (K j p P) as (p2 & J2 & _ & Nd & _ & F). rewrite J in J2. injection J2 as <-. destruct (F f I) as (vs & W & G). rewrite W, Nd. do 2 f_equal.
  assert (Z : forall x, In x (p_nodes _ _ p) -> find x <> None) by (intros x; apply N; eapply nth_error_In, P). clear - G Z R. induction G as [|x y l m H G IH]; [reflexivity|]. cbn [map]. rewrite IH by (intros; apply Z; right; assumption).
  f_equal. destruct H as (k & X & o & v & U & O & FF & ->). destruct U as [[U ->]|[U _]]; [apply (R k o v x O FF U)|]. exfalso. apply (Z x (or_introl eq_refl)), U.
Qed.
Print Assumptions C172_exact.
(** copying: patch by patch, the named fields become equal to the old ones; the grids have the same patches (the names agree from the first underscore on) with the same numbers of nodes *)
Theorem C172_copy : forall (pos V : Type) (og ng ng' : list (patch pos V)) names, copy pos V og ng names = Ok ng' -> List.length ng' = List.length ng /\ List.length og = List.length ng /\
  forall j o p, nth_error og j = Some o -> nth_error ng j = Some p -> exists p', nth_error ng' j = Some p' /\ p_name _ _ p' = p_name _ _ p /\ p_nodes _ _ p' = p_nodes _ _ p /\ (forall f, ~ In f names -> p_fld _ _ p' f = p_fld _ _ p f) /\
   forall f, In f names -> exists v, p_fld _ _ o f = Some (Some v) /\ p_fld _ _ p' f = Some (Some v) /\ List.length (p_nodes _ _ p) = List.length (p_nodes _ _ o) /\
     exists a b s, p_name _ _ p = a ++ "_"%char :: s /\ p_name _ _ o = b ++ "_"%char :: s /\ ~ In "_"%char a /\ ~ In "_"%char b.
Proof.
  intros pos V og ng ng' names E. destruct (copy_done pos V og ng names ng' E) as (L & M & K). split; [exact L|]. split; [exact M|]. intros j o p O P.
  destruct (K j o p O P) as (p' & A & (B & C) & D & F). exists p'. split; [exact A|]. split; [exact B|]. split; [exact C|]. split; [exact D|]. intros f I. destruct (F f I) as (_ & v & a & b & s & H). exists v. split; [tauto|]. split; [tauto|]. split; [tauto|]. exists a, b, s. tauto.
Qed.
Print Assumptions C172_copy.
(** the third argument: 0 interpolation, 1 copy, the program stops otherwise *)
Theorem C172_mode : forall (pos crd V : Type) find X_of force interp (og ng : list (patch pos V)) par names m, read_separated_items par ","%char = Ok names ->
  transfer pos crd V find X_of force interp og ng par m =
  if Z.eqb m 0 then interpolate pos crd V find X_of force interp og ng names else if Z.eqb m 1 then copy pos V og ng names else Abort.
Proof. intros pos crd V find X_of force interp og ng par names m R. unfold transfer. rewrite R. reflexivity. Qed.
Print Assumptions C172_mode.
(** If nothing is to be copied, the patches are not compared: grids with different resolutions pass. *)
Theorem C172_unchecked_refuted : exists og ng : list (patch Z Z), copy Z Z og ng [] = Ok ng /\ map (fun p => List.length (p_nodes _ _ p)) og <> map (fun p => List.length (p_nodes _ _ p)) ng.
Proof. exists [mkpatch Z Z (S_ "grid1_a") [1%Z; 2%Z] (fun _ => None)], [mkpatch Z Z (S_ "grid2_b") [1%Z] (fun _ => None)]. split; [reflexivity|discriminate]. Qed.
Print Assumptions C172_unchecked_refuted.
Definition ex_old : list (patch Z Z) := [mkpatch Z Z (S_ "grid1_a") [0%Z; 4%Z] (fun f => if str_eqb f (S_ "psi") then Some (Some [3%Z; 11%Z]) else None)].
Definition ex_new : list (patch Z Z) := [mkpatch Z Z (S_ "grid2_a") [1%Z; 3%Z] (fun f => if str_eqb f (S_ "psi") then Some None else None)].
Example C172_ex : (exists r, transfer Z Z Z (fun x => Some 0) (fun _ x => x) (fun _ => None) (fun _ v X => (nth 0 v 0 + X * 2)%Z) ex_old ex_new (S_ "psi") 0 = Ok r /\ map (fun p => p_fld _ _ p (S_ "psi")) r = [Some (Some [5%Z; 9%Z])]) /\
  (exists r, transfer Z Z Z (fun x => Some 0) (fun _ x => x) (fun _ => None) (fun _ v X => X) ex_old ex_new (S_ "psi") 1 = Ok r /\ map (fun p => p_fld _ _ p (S_ "psi")) r = [Some (Some [3%Z; 11%Z])]) /\
  transfer Z Z Z (fun x => Some 0) (fun _ x => x) (fun _ => None) (fun _ v X => X) ex_old ex_new (S_ "psi") 2 = Abort.
Proof. split; [eexists; split; [vm_compute; reflexivity|reflexivity]|]. split; [eexists; split; [vm_compute; reflexivity|reflexivity]|]. vm_compute. reflexivity. Qed.
