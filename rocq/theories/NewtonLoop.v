(** NewtonLoop.v - the Newton loop: it ends, and what its ending means. *)
From Verif Require Import Base TextModel NewtonModel.
Open Scope nat_scope.
Notation length := List.length.

Section Loop.
Context {D : Type} (isfinite : D -> bool) (gt : D -> D -> bool).
Notation criteria := (criteria isfinite gt).
Notation StopCriteria := (StopCriteria isfinite gt).

(** what the four verdicts mean *)
Lemma criteria_spec (res : list D) step max_step res_d :
  match criteria res step max_step res_d with
  | Satisfied => Forall (fun r => isfinite r = true /\ gt r res_d = false) res
  | Abnormal => exists r, In r res /\ isfinite r = false
  | MaxStep => (max_step <= step)%Z
  | Goes_on => (step < max_step)%Z /\ exists r, In r res /\ isfinite r = true /\ gt r res_d = true
  end.
Proof.
  induction res as [|r t IH]; cbn [NewtonModel.criteria]; [constructor|].
  destruct (isfinite r) eqn:EF; cbn [negb]; [|exists r; split; [left; reflexivity|assumption]].
  destruct (Z.leb_spec max_step step); [assumption|].
  destruct (gt r res_d) eqn:EG; [split; [assumption|exists r; split; [left; reflexivity|auto]]|].
  destruct (criteria t step max_step res_d).
  - destruct IH as (x & Hx & H1). exists x. split; [right; assumption|assumption].
  - assumption.
  - constructor; auto.
  - destruct IH as (H1 & x & Hx & H2). split; [assumption|]. exists x. split; [right; assumption|assumption].
Qed.
Theorem continue_iff (res : list D) step max_step res_d : Forall (fun r => isfinite r = true) res ->
  (StopCriteria res step max_step res_d = true <-> (step < max_step)%Z /\ exists r, In r res /\ gt r res_d = true).
Proof.
  intros HF. unfold NewtonModel.StopCriteria. pose proof (criteria_spec res step max_step res_d) as H.
  destruct (criteria res step max_step res_d); split; intros H'; try discriminate.
  - destruct H as (r & Hr & E). rewrite Forall_forall in HF. rewrite (HF r Hr) in E. discriminate.
  - destruct H'. lia.
  - destruct H' as (_ & r & Hr & E). rewrite Forall_forall in H. destruct (H r Hr) as [_ E']. congruence.
  - destruct H as (A & r & Hr & _ & E). split; [assumption|eauto].
  - reflexivity.
Qed.

Context {St : Type} (residual : St -> outcome (list D)) (body : St -> outcome St).
(** st is reached from st0 by k Newton steps; hist lists the residuals before them *)
Inductive iterates (max_step : Z) (res_d : D) : St -> nat -> St -> list (list D) -> Prop :=
| it_0 st : iterates max_step res_d st 0 st []
| it_S st0 k st hist res st' : iterates max_step res_d st0 k st hist -> residual st = Ok res ->
    StopCriteria res (Z.of_nat k) max_step res_d = true -> body st = Ok st' -> iterates max_step res_d st0 (S k) st' (hist ++ [res]).
Notation solve_field := (solve_field isfinite gt residual body).

Lemma loop_from max_step res_d st0 : forall fuel k st hist, iterates max_step res_d st0 k st hist ->
  (Z.max 0 max_step + 1 <= Z.of_nat (k + fuel))%Z -> (Z.of_nat k <= Z.max 0 max_step)%Z ->
  match solve_field fuel (Z.of_nat k) max_step res_d st hist with
  | Ok (Some (st', kz, hist')) => exists k' h' res, kz = Z.of_nat k' /\ k <= k' /\ iterates max_step res_d st0 k' st' h' /\ hist' = h' ++ [res] /\
        residual st' = Ok res /\ StopCriteria res (Z.of_nat k') max_step res_d = false /\ (Z.of_nat k' <= Z.max 0 max_step)%Z
  | Ok None => False
  | Abort => exists k' st' h', k <= k' /\ iterates max_step res_d st0 k' st' h' /\ (residual st' = Abort \/ body st' = Abort)
  | UB => exists k' st' h', k <= k' /\ iterates max_step res_d st0 k' st' h' /\ (residual st' = UB \/ body st' = UB)
  end.
Proof.
  induction fuel as [|fuel IH]; intros k st hist IT HF HK; [lia|].
  cbn [NewtonModel.solve_field]. destruct (residual st) as [res| |] eqn:ER; cbn [obind].
  2: exists k, st, hist; auto. 2: exists k, st, hist; auto.
  destruct (StopCriteria res (Z.of_nat k) max_step res_d) eqn:ES.
  - destruct (body st) as [st1| |] eqn:EB; cbn [obind]. 2: exists k, st, hist; auto. 2: exists k, st, hist; auto.
    pose proof (it_S max_step res_d st0 k st hist res st1 IT ER ES EB) as IT1.
    assert (HL : (Z.of_nat k < max_step)%Z).
    { unfold NewtonModel.StopCriteria in ES. pose proof (criteria_spec res (Z.of_nat k) max_step res_d) as H. destruct (criteria res (Z.of_nat k) max_step res_d); try discriminate. apply H. }
    replace (Z.of_nat k + 1)%Z with (Z.of_nat (S k)) by lia. specialize (IH (S k) st1 _ IT1 ltac:(lia) ltac:(lia)).
    destruct (solve_field fuel (Z.of_nat (S k)) max_step res_d st1 (hist ++ [res])) as [[[[st' kz] hist']|]| |].
    + destruct IH as (k' & h' & res' & A & B & C). exists k', h', res'. split; [assumption|]. split; [lia|assumption].
    + assumption.
    + destruct IH as (k' & st' & h' & A & B). exists k', st', h'. split; [lia|assumption].
    + destruct IH as (k' & st' & h' & A & B). exists k', st', h'. split; [lia|assumption].
  - exists k, hist, res. auto 10.
Qed.

(** the loop makes at most max_step Newton steps *)
Theorem loop_ends max_step res_d st0 :
  match solve_field (S (Z.to_nat max_step)) 0 max_step res_d st0 [] with
  | Ok (Some (st, kz, hist)) => exists k h res, kz = Z.of_nat k /\ iterates max_step res_d st0 k st h /\ hist = h ++ [res] /\ length hist = S k /\
        residual st = Ok res /\ (Z.of_nat k <= Z.max 0 max_step)%Z /\
        ((exists r, In r res /\ isfinite r = false) \/ (max_step <= Z.of_nat k)%Z \/ Forall (fun r => isfinite r = true /\ gt r res_d = false) res)
  | Ok None => False
  | Abort => exists k st h, iterates max_step res_d st0 k st h /\ (residual st = Abort \/ body st = Abort)
  | UB => exists k st h, iterates max_step res_d st0 k st h /\ (residual st = UB \/ body st = UB)
  end.
Proof.
  pose proof (loop_from max_step res_d st0 (S (Z.to_nat max_step)) 0 st0 [] (it_0 _ _ st0) ltac:(lia) ltac:(lia)) as H. cbn [Z.of_nat] in H.
  destruct (solve_field (S (Z.to_nat max_step)) 0 max_step res_d st0 []) as [[[[st kz] hist]|]| |].
  - destruct H as (k & h & res & E & _ & IT & EH & ER & ES & HM). exists k, h, res. split; [assumption|]. split; [assumption|]. split; [assumption|]. split; [|split; [assumption|split; [assumption|]]].
    + subst hist. rewrite app_length. cbn. assert (length h = k). { clear - IT. induction IT; [reflexivity|]. rewrite app_length. cbn. lia. } lia.
    + unfold NewtonModel.StopCriteria in ES. pose proof (criteria_spec res (Z.of_nat k) max_step res_d) as HC. destruct (criteria res (Z.of_nat k) max_step res_d); [left; assumption|right; left; assumption|right; right; assumption|discriminate].
  - assumption.
  - destruct H as (k & st & h & _ & H). eauto.
  - destruct H as (k & st & h & _ & H). eauto.
Qed.
End Loop.
