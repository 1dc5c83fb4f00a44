(** DerivNameProofs.v - proofs for DerivModel.v. *)
From Verif Require Import Base TextModel DerivModel.
Open Scope list_scope.
(** the name of the derivative of f: [dname f s i] puts d before f (after a leading underscore) and s and the digit i behind *)
Definition digit (i : nat) : ascii := match i with 0 => "0"%char | 1 => "1"%char | _ => "2"%char end.
Definition dname (f s : str) (i : nat) : str :=
  match f with
  | c :: g => if ch_eqb c "_"%char then "_"%char :: "d"%char :: g ++ s ++ [digit i] else "d"%char :: f ++ s ++ [digit i]
  | [] => "d"%char :: s ++ [digit i]
  end.
Lemma ch_refl c : ch_eqb c c = true. Proof. apply ch_eqb_eq. reflexivity. Qed.
Lemma axis_digit i : i < 3 -> axis_of (digit i) = Some i.
Proof. intros H. destruct i as [|[|[|]]]; try reflexivity. lia. Qed.
Lemma axis_some c i : axis_of c = Some i -> i < 3 /\ c = digit i.
Proof.
  unfold axis_of. destruct (ch_eqb c "0"%char) eqn:A; [apply ch_eqb_eq in A; intros E; injection E as <-; split; [lia|exact A]|].
  destruct (ch_eqb c "1"%char) eqn:B; [apply ch_eqb_eq in B; intros E; injection E as <-; split; [lia|exact B]|].
  destruct (ch_eqb c "2"%char) eqn:C; [apply ch_eqb_eq in C; intros E; injection E as <-; split; [lia|exact C]|discriminate].
Qed.
(** the last step: the stem gives the field *)
Definition undo (stem : str) : option str :=
  match stem with
  | c :: r => if ch_eqb c "_"%char then match r with d :: r => if ch_eqb d "d"%char then Some ("_"%char :: r) else None | [] => None end
              else if ch_eqb c "d"%char then Some r else None
  | [] => None
  end.
Definition redo (f : str) : str := match f with c :: g => if ch_eqb c "_"%char then "_"%char :: "d"%char :: g else "d"%char :: f | [] => ["d"%char] end.
Lemma dname_redo f s i : dname f s i = redo f ++ s ++ [digit i].
Proof. unfold dname, redo. destruct f as [|c g]; [reflexivity|]. destruct (ch_eqb c _); reflexivity. Qed.
Lemma undo_redo f : undo (redo f) = Some f.
Proof.
  unfold redo. destruct f as [|c g]; [reflexivity|]. destruct (ch_eqb c "_"%char) eqn:E; [|reflexivity]. apply ch_eqb_eq in E. subst c. reflexivity.
Qed.
Lemma undo_some t f : undo t = Some f -> t = redo f \/ (exists g, f = "_"%char :: g /\ t = "d"%char :: f).
Proof.
  destruct t as [|c r]; [discriminate|]. unfold undo. destruct (ch_eqb c "_"%char) eqn:A.
  - apply ch_eqb_eq in A. subst c. destruct r as [|d r]; [discriminate|]. destruct (ch_eqb d "d"%char) eqn:B; [|discriminate]. apply ch_eqb_eq in B. subst d. intros E. injection E as <-. left. reflexivity.
  - destruct (ch_eqb c "d"%char) eqn:B; [|discriminate]. apply ch_eqb_eq in B. subst c. intros E. injection E as <-. destruct r as [|x y]; [left; reflexivity|].
    unfold redo. destruct (ch_eqb x "_"%char) eqn:C; [|left; reflexivity]. apply ch_eqb_eq in C. subst x. right. exists y. split; reflexivity.
Qed.
Lemma parse_stem t s c n i : n = t ++ s ++ [c] -> axis_of c = Some i -> t <> [] -> List.length n < MAX_STR_LEN -> 3 < List.length n ->
  ((exists x, s = ["_"%char; x]) \/ (exists x, s = [x] /\ last t NUL <> "_"%char)) ->
  parse n = match undo t with Some f => Ok (f, i) | None => Abort end.
Proof.
  intros E A T L L3 S. unfold parse. cbv zeta. apply Nat.ltb_lt in L, L3. rewrite L, L3. cbn [negb]. apply Nat.ltb_lt in L3.
  assert (N1 : nth (List.length n - 1) n NUL = c).
  { rewrite E at 2. rewrite app_assoc, app_nth2; rewrite E, !app_length; cbn [List.length]; [|lia]. replace (_ - _) with 0 by lia. reflexivity. }
  rewrite N1, A. assert (K : (if ch_eqb (nth (List.length n - 3) n NUL) "_"%char then firstn (List.length n - 3) n else firstn (List.length n - 2) n) = t).
  { destruct S as [(x & ->)|(x & -> & H)].
    - assert (Q : List.length n - 3 = List.length t) by (rewrite E, !app_length; cbn [List.length app]; lia).
      rewrite Q, E, app_nth2, Nat.sub_diag by lia. cbn [app nth]. rewrite ch_refl. rewrite firstn_app, Nat.sub_diag, firstn_all. cbn. apply app_nil_r.
    - assert (Q : List.length n - 2 = List.length t) by (rewrite E, !app_length; cbn [List.length app]; lia).
      assert (Q3 : List.length n - 3 = List.length t - 1) by lia. assert (P : 0 < List.length t) by (destruct t; [congruence|cbn; lia]).
      rewrite Q, Q3, E, app_nth1 by lia. replace (nth (List.length t - 1) t NUL) with (last t NUL).
      2:{ destruct (exists_last T) as (u & z & ->). rewrite last_last, app_length. cbn [List.length]. replace (_ + 1 - 1) with (List.length u) by lia. rewrite app_nth2, Nat.sub_diag by lia. reflexivity. }
      destruct (ch_eqb (last t NUL) "_"%char) eqn:C; [apply ch_eqb_eq in C; congruence|]. rewrite firstn_app, Nat.sub_diag, firstn_all. cbn. apply app_nil_r. }
  rewrite K. clear K N1. unfold undo. destruct t as [|a r]; [congruence|]. destruct (ch_eqb a "_"%char); [destruct r as [|d r]; [reflexivity|]; destruct (ch_eqb d "d"%char); reflexivity|]. destruct (ch_eqb a "d"%char); reflexivity.
Qed.
Lemma redo_ne f : redo f <> [].
Proof. unfold redo. destruct f as [|c g]; [discriminate|]. destruct (ch_eqb c _); discriminate. Qed.
Lemma redo_len f : List.length (redo f) = S (List.length f).
Proof. unfold redo. destruct f as [|c g]; [reflexivity|]. destruct (ch_eqb c _); reflexivity. Qed.
Lemma redo_last f : f <> [] -> f <> S_ "_" -> last (redo f) NUL = last f NUL.
Proof.
  intros N U. unfold redo. destruct f as [|c g]; [congruence|]. destruct (ch_eqb c "_"%char) eqn:E; [|reflexivity]. apply ch_eqb_eq in E. subst c.
  destruct g; [exfalso; apply U; reflexivity|reflexivity].
Qed.
(** what is computed is what the name says *)
Lemma parse_first f x i : i < 3 -> S (List.length f) + 3 < MAX_STR_LEN -> parse (dname f ["_"%char; x] i) = Ok (f, i).
Proof.
  intros I L. rewrite dname_redo. erewrite (parse_stem (redo f) ["_"%char; x] (digit i)); [rewrite undo_redo; reflexivity|reflexivity|apply axis_digit, I|apply redo_ne| | |].
  - rewrite !app_length, redo_len. cbn [List.length app]. lia.
  - rewrite !app_length, redo_len. cbn [List.length app]. lia.
  - left. exists x. reflexivity.
Qed.
Lemma parse_next f x i : i < 3 -> f <> [] -> last f NUL <> "_"%char \/ f = S_ "_" -> S (List.length f) + 2 < MAX_STR_LEN -> parse (dname f [x] i) = Ok (f, i).
Proof.
  intros I N U L. rewrite dname_redo. assert (P : 0 < List.length f) by (destruct f; [congruence|cbn; lia]).
  erewrite (parse_stem (redo f) [x] (digit i)); [rewrite undo_redo; reflexivity|reflexivity|apply axis_digit, I|apply redo_ne| | |].
  - rewrite !app_length, redo_len. cbn [List.length app]. lia.
  - rewrite !app_length, redo_len. cbn [List.length app]. lia.
  - right. exists x. split; [reflexivity|]. destruct (list_eq_dec ascii_dec f (S_ "_")) as [->|Q]; [discriminate|]. rewrite redo_last by assumption. destruct U; [assumption|congruence].
Qed.
(** everything that is accepted *)
Lemma parse_split n : 3 < List.length n -> exists t s c, n = t ++ s ++ [c] /\ t <> [] /\
  ((exists x, s = ["_"%char; x]) \/ (exists x, s = [x] /\ last t NUL <> "_"%char)).
Proof.
  intros L. destruct (@exists_last _ n) as (u & c & ->); [destruct n; [cbn in L; lia|discriminate]|]. rewrite app_length in L. cbn in L.
  destruct (@exists_last _ u) as (v & b & ->); [destruct u; [cbn in L; lia|discriminate]|]. rewrite app_length in L. cbn in L.
  destruct (@exists_last _ v) as (w & a & ->); [destruct v; [cbn in L; lia|discriminate]|]. rewrite app_length in L. cbn in L.
  destruct (ascii_dec a "_"%char) as [->|N].
  - exists w, ["_"%char; b], c. split; [rewrite <- !app_assoc; reflexivity|]. split; [destruct w; [cbn in L; lia|discriminate]|]. left. eauto.
  - exists (w ++ [a]), [b], c. split; [rewrite <- !app_assoc; reflexivity|]. split; [destruct w; discriminate|]. right. exists b. split; [reflexivity|]. rewrite last_last. exact N.
Qed.
Lemma parse_inv n f i : parse n = Ok (f, i) -> i < 3 /\ List.length n < MAX_STR_LEN /\ 3 < List.length n /\ exists t s c, n = t ++ s ++ [digit i] /\ undo t = Some f /\ c = digit i /\
   ((exists x, s = ["_"%char; x]) \/ (exists x, s = [x] /\ last t NUL <> "_"%char)).
Proof.
  intros E. assert (L : List.length n < MAX_STR_LEN).
  { unfold parse in E. cbv zeta in E. destruct (Nat.ltb (List.length n) MAX_STR_LEN) eqn:Q; [apply Nat.ltb_lt in Q; exact Q|discriminate]. }
  assert (L3 : 3 < List.length n).
  { unfold parse in E. cbv zeta in E. apply Nat.ltb_lt in L. rewrite L in E. destruct (Nat.ltb 3 (List.length n)) eqn:Q; [apply Nat.ltb_lt in Q; exact Q|discriminate]. }
  destruct (parse_split n L3) as (t & s & c & En & T & S). destruct (axis_of c) as [j|] eqn:A.
  - rewrite (parse_stem t s c n j En A T L L3 S) in E. destruct (undo t) as [g|] eqn:U; [|discriminate]. injection E as <- <-. apply axis_some in A. destruct A as [I ->].
    split; [exact I|]. split; [exact L|]. split; [exact L3|]. exists t, s, (digit j). auto.
  - exfalso. unfold parse in E. cbv zeta in E. pose proof L as L'. apply Nat.ltb_lt in L'. rewrite L' in E. pose proof L3 as L3'. apply Nat.ltb_lt in L3'. rewrite L3' in E. cbn [negb] in E.
    assert (N1 : nth (List.length n - 1) n NUL = c).
    { rewrite En at 2. rewrite app_assoc, app_nth2; rewrite En, !app_length; cbn [List.length]; [|lia]. replace (_ - _) with 0 by lia. reflexivity. }
    rewrite N1, A in E. discriminate.
Qed.
Lemma parse_shorter n f i : parse n = Ok (f, i) -> List.length f + 3 <= List.length n.
Proof.
  intros E. apply parse_inv in E. destruct E as (_ & _ & _ & t & s & c & -> & U & _ & S). apply undo_some in U. rewrite !app_length. cbn [List.length].
  assert (1 <= List.length s) by (destruct S as [(x & ->)|(x & -> & _)]; cbn; lia). destruct U as [->|(g & -> & ->)]; [rewrite redo_len|cbn [List.length]]; lia.
Qed.
(** *** the loops *)
Section Loops.
Variable V : Type.
Variable D : nat -> V -> V.
Variable search : str -> str -> bool.
Notation vals := (vals V).
Notation pd := (partial_derivative V D).
Lemma pd_inv names n st st' : pd names n st = Ok st' -> exists f i v, parse n = Ok (f, i) /\ In f names /\ st f = Some v /\ st' = setv V st n (Some (D i v)).
Proof.
  unfold partial_derivative. destruct (parse n) as [[f i]| |] eqn:P; cbn [obind]; try discriminate. destruct (existsb (str_eqb f) names) eqn:X; [|discriminate].
  apply existsb_exists in X. destruct X as (g & G & Q). apply str_eqb_eq in Q. subst g. destruct (st f) as [v|] eqn:F; [|discriminate]. intros E. injection E as <-. exists f, i, v. auto.
Qed.
Lemma pd_ok names n st f i v : parse n = Ok (f, i) -> In f names -> st f = Some v -> pd names n st = Ok (setv V st n (Some (D i v))).
Proof.
  intros P I F. unfold partial_derivative. rewrite P. cbn [obind]. replace (existsb (str_eqb f) names) with true; [rewrite F; reflexivity|].
  symmetry. apply existsb_exists. exists f. split; [exact I|apply str_eqb_refl].
Qed.
Lemma set_same st n v : setv V st n v n = v. Proof. unfold setv. rewrite str_eqb_refl. reflexivity. Qed.
Lemma set_other st n v m : n <> m -> setv V st n v m = st m.
Proof. intros N. unfold setv. apply str_eqb_neq in N. rewrite N. reflexivity. Qed.
Lemma each_app names a : forall b st, each V D names (a ++ b) st = obind (each V D names a st) (each V D names b).
Proof. induction a as [|n a IH]; intros b st; cbn [app each]; [reflexivity|]. destruct (pd names n st); cbn [obind]; [apply IH|reflexivity|reflexivity]. Qed.
Lemma each_others names l : forall st st', each V D names l st = Ok st' -> forall m, ~ In m l -> st' m = st m.
Proof.
  induction l as [|n l IH]; intros st st' E m M; cbn [each] in E; [injection E as <-; reflexivity|]. destruct (pd names n st) as [s1| |] eqn:P; try discriminate. cbn [obind] in E.
  rewrite (IH _ _ E m) by (intros X; apply M; right; exact X). apply pd_inv in P. destruct P as (f & i & v & _ & _ & _ & ->). apply set_other. intros ->. apply M. left. reflexivity.
Qed.
Definition ordered (l : list str) : Prop := forall a n b f i, l = a ++ n :: b -> parse n = Ok (f, i) -> ~ In f b.
Lemma each_consistent names l : forall st st', each V D names l st = Ok st' -> ordered l ->
  forall n, In n l -> exists f i v, parse n = Ok (f, i) /\ In f names /\ st' f = Some v /\ st' n = Some (D i v).
Proof.
  induction l as [|n l IH]; intros st st' E O m I; [destruct I|]. pose proof E as E0. cbn [each] in E. destruct (pd names n st) as [s1| |] eqn:P; try discriminate. cbn [obind] in E.
  assert (O' : ordered l) by (intros a k b f i Q; apply (O (n :: a) k b f i); rewrite Q; reflexivity).
  destruct (in_dec (list_eq_dec ascii_dec) m l) as [J|J]; [apply (IH _ _ E O' m J)|]. destruct I as [->|I]; [|tauto].
  apply pd_inv in P. destruct P as (f & i & v & P & F & S & ->). exists f, i, v. split; [exact P|]. split; [exact F|].
  assert (N : m <> f) by (intros <-; apply parse_shorter in P; lia).
  rewrite (each_others _ _ _ _ E m J), set_same. split; [|reflexivity]. rewrite (each_others _ _ _ _ E f) by (apply (O [] m l f i); [reflexivity|exact P]). rewrite set_other; assumption.
Qed.
Lemma each_ok names l : forall st, (exists st', each V D names l st = Ok st') <->
  (forall a n b, l = a ++ n :: b -> exists f i, parse n = Ok (f, i) /\ In f names /\ (st f <> None \/ In f a)).
Proof.
  induction l as [|n l IH]; intros st.
  - split; [intros _ a n b E; destruct a; discriminate|intros _; eexists; reflexivity].
  - cbn [each]. split.
    + intros (st' & E) a m b Q. destruct (pd names n st) as [s1| |] eqn:P; try discriminate. cbn [obind] in E. apply pd_inv in P. destruct P as (f & i & v & P & F & S & ->).
      destruct a as [|x a]; cbn [app] in Q; injection Q as <- ->; [exists f, i; split; [exact P|split; [exact F|left; congruence]]|].
      destruct (proj1 (IH _) (ex_intro _ st' E) a m b eq_refl) as (g & j & G & H & K). exists g, j. split; [exact G|]. split; [exact H|].
      destruct (list_eq_dec ascii_dec n g) as [->|N]; [right; left; reflexivity|]. rewrite set_other in K by exact N. destruct K; [left; assumption|right; right; assumption].
    + intros H. destruct (H [] n l eq_refl) as (f & i & P & F & K). destruct K as [K|[]]. destruct (st f) as [v|] eqn:S; [|congruence]. rewrite (pd_ok _ _ _ _ _ _ P F S). cbn [obind].
      apply IH. intros a m b Q. destruct (H (n :: a) m b) as (g & j & G & GI & K'); [cbn; rewrite Q; reflexivity|]. exists g, j. split; [exact G|]. split; [exact GI|].
      destruct (list_eq_dec ascii_dec n g) as [->|N]; [left; rewrite set_same; discriminate|]. rewrite set_other by exact N. destruct K' as [|[|]]; [left; assumption|congruence|right; assumption].
Qed.
Lemma regexes_each names l st : (forall r, In r l -> ~ In " "%char r) -> regexes V D search names l st = each V D names (flat_map (fun r => filter (search r) names) l) st.
Proof.
  revert st. induction l as [|r l IH]; intros st H; cbn [regexes flat_map]; [reflexivity|]. replace (existsb (ch_eqb " "%char) r) with false.
  - rewrite each_app. destruct (each V D names (filter (search r) names) st); cbn [obind]; [apply IH; intros; apply H; right; assumption|reflexivity|reflexivity].
  - symmetry. destruct (existsb (ch_eqb " "%char) r) eqn:X; [|reflexivity]. apply existsb_exists in X. destruct X as (c & C & E). apply ch_eqb_eq in E. subst c. exfalso. apply (H r); [left; reflexivity|exact C].
Qed.
Lemma regexes_space names l : forall st st', regexes V D search names l st = Ok st' -> forall r, In r l -> ~ In " "%char r.
Proof.
  induction l as [|r l IH]; intros st st' E q Q; [destruct Q|]. cbn [regexes] in E. destruct (existsb (ch_eqb " "%char) r) eqn:X; [discriminate|].
  destruct (each V D names (filter (search r) names) st) as [s1| |]; try discriminate. cbn [obind] in E. destruct Q as [<-|Q]; [|apply (IH _ _ E q Q)].
  intros C. assert (existsb (ch_eqb " "%char) r = true) by (apply existsb_exists; exists " "%char; split; [exact C|apply ch_refl]). congruence.
Qed.
End Loops.
