(** ObsProofs.v - the generated integrands of the global quantities. *)
From Verif Require Import RealBase TensorSpec TensorProofs RicciProofs RicciFinal XctsSpec ShiftSpec XctsProofs AdmSpec AdmConf AdmGen AdmFinal ObsSpec.
From Verif Require GenObsP GenObsJ GenObsPR GenObsPC GenObsJC GenObsPO GenObsJO GenObsSC GenObsSA.

Ltac obs := cbv -[Rplus Rminus Rmult Rdiv Ropp Rinv pow IZR PI]; field; assumption.

Section Surface.
  Variables (c : conf) (n : nat -> R).
  Hypothesis Hp : cpsi c <> 0.
  Lemma P_default old i : (i < 3)%nat ->
    GenObsP.store_obs__Pn (GenObsP.mk (cA c) (cg c) n (cpsi c) (cK c)) old i = sum3 (fun j => momd c i j * n j).
  Proof. intros Hi. destruct c. cbn in Hp. idx i; obs. Qed.
  Lemma P_constraint old i : (i < 3)%nat ->
    GenObsPC.store_obs__Ps (GenObsPC.mk (cA c) (cG c) (cdpsi c) (cg c) (cig c) n (cpsi c) (cK c)) old i = sum3 (fun j => momd c i j * n j).
  Proof. intros Hi. destruct c. cbn in Hp. idx i; obs. Qed.
  Lemma P_rashti old i : (i < 3)%nat ->
    GenObsPR.store_obs__Pin (GenObsPR.mk (cA c) (cG c) (cdA c) (cdg c) (cdpsi c) (cdK c) (cg c) n (cpsi c) (cK c)) old i = sum3 (fun j => momd c i j * n j).
  Proof. intros Hi. destruct c. cbn in Hp. idx i; obs. Qed.
  Lemma J_default xi old i : (i < 3)%nat ->
    GenObsJ.store_obs__Jn (GenObsJ.mk (cA c) (cg c) n (cpsi c) (cK c) xi) old i = cross xi (fun k => sum3 (fun j => momd c k j * n j)) i.
  Proof. intros Hi. destruct c. cbn in Hp. idx i; obs. Qed.
  Lemma J_constraint (x x0 : nat -> R) old i : (i < 3)%nat ->
    GenObsJC.store_obs__Js (GenObsJC.mk (cA c) (cG c) (cdpsi c) (cg c) (cig c) n (cpsi c) (cK c) (x 0%nat) (x0 0%nat) (x 1%nat) (x0 1%nat) (x 2%nat) (x0 2%nat)) old i
    = cross (fun l => x l - x0 l) (fun k => sum3 (fun j => momd c k j * n j)) i.
  Proof. intros Hi. destruct c. cbn in Hp. idx i; obs. Qed.
End Surface.
