(** IndexProofs.v - proofs of C27, C28, C44. *)
From Verif Require Import Base IndexModel.

Open Scope Z_scope.
Lemma u32_small z : 0 <= z < 4294967296 -> u32 z = z.
Proof. intros H. unfold u32. apply Z.mod_small. exact H. Qed.
Section IJK.
Variables n0 n1 n2 : Z.
Hypothesis N : 0 <= n0 /\ 0 <= n1 /\ 0 <= n2 /\ n0 * n1 * n2 <= 4294967296.
Lemma ijk_value i j k : 0 <= i < n0 -> 0 <= j < n1 -> 0 <= k < n2 ->
  i_j_k_to_ijk n0 n1 n2 i j k = k + n2 * (j + n1 * i) /\ 0 <= k + n2 * (j + n1 * i) < n0 * n1 * n2.
Proof.
  intros Hi Hj Hk.
  assert (B1 : n1 * i + n1 <= n0 * n1) by nia.
  assert (B2 : 0 <= n1 * i) by nia.
  assert (B3 : n2 * (j + n1 * i) + n2 <= n0 * n1 * n2) by nia.
  assert (B4 : 0 <= n2 * (j + n1 * i)) by nia.
  assert (B5 : j + n1 * i + 1 <= n0 * n1) by lia.
  assert (B6 : n0 * n1 <= n0 * n1 * n2) by nia.
  unfold i_j_k_to_ijk. rewrite (u32_small (n1 * i)) by lia. rewrite (u32_small (j + n1 * i)) by lia.
  rewrite (u32_small (n2 * _)) by lia. rewrite u32_small by lia. split; [reflexivity|lia].
Qed.
Lemma u32_n2n1 l : 0 <= l < n0 * n1 * n2 -> u32 (n2 * n1) = n2 * n1 /\ 0 < n2 * n1 /\ 0 < n2 /\ 0 < n1 /\ 0 < n0 \/ n2 * n1 = 4294967296.
Proof.
  intros H. assert (0 < n0) by nia. assert (0 < n1) by nia. assert (0 < n2) by nia.
  assert (n2 * n1 <= n0 * n1 * n2) by nia.
  destruct (Z.eq_dec (n2 * n1) 4294967296) as [E|E]; [right; exact E|left]. rewrite u32_small by nia. repeat split; try assumption; nia.
Qed.
End IJK.
(** going there and back; the product n1*n2 has to fit in a Uint for the inverse *)
Theorem ijk_there_and_back n0 n1 n2 i j k :
  n0 * n1 * n2 <= 4294967296 -> n1 * n2 < 4294967296 -> 0 <= i < n0 -> 0 <= j < n1 -> 0 <= k < n2 ->
  ijk_to_i_j_k (i_j_k_to_ijk n0 n1 n2 i j k) n0 n1 n2 = Ok (i, j, k) /\
  ijk_to_i (i_j_k_to_ijk n0 n1 n2 i j k) n0 n1 n2 = Ok i /\ ijk_to_j (i_j_k_to_ijk n0 n1 n2 i j k) n0 n1 n2 = Ok j /\
  ijk_to_k (i_j_k_to_ijk n0 n1 n2 i j k) n0 n1 n2 = Ok k /\
  0 <= i_j_k_to_ijk n0 n1 n2 i j k < n0 * n1 * n2.
Proof.
  intros H H12 Hi Hj Hk. destruct (ijk_value n0 n1 n2 ltac:(lia) i j k Hi Hj Hk) as [-> B].
  assert (U : u32 (n2 * n1) = n2 * n1) by (apply u32_small; nia).
  assert (Q : (k + n2 * (j + n1 * i)) / (n2 * n1) = i /\ (k + n2 * (j + n1 * i)) mod (n2 * n1) = k + n2 * j).
  { assert (R : 0 <= k + n2 * j < n2 * n1) by nia. split.
    - symmetry. apply (Z.div_unique _ _ i (k + n2 * j)); [left; exact R|ring].
    - symmetry. apply (Z.mod_unique _ _ i (k + n2 * j)); [left; exact R|ring]. }
  assert (Q2 : (k + n2 * j) / n2 = j /\ (k + n2 * j) mod n2 = k).
  { split; symmetry; [apply (Z.div_unique _ _ j k)|apply (Z.mod_unique _ _ j k)]; [left; exact Hk|ring|left; exact Hk|ring]. }
  unfold ijk_to_i_j_k, ijk_to_i, ijk_to_j, ijk_to_k. rewrite U. destruct (Z.eqb_spec (n2 * n1) 0) as [E|_]; [nia|].
  destruct (Z.eqb_spec n2 0) as [E|_]; [lia|]. cbn [orb]. destruct Q as [-> ->]. destruct Q2 as [-> ->]. auto 6.
Qed.
Theorem ijk_back_and_there n0 n1 n2 l :
  n0 * n1 * n2 <= 4294967296 -> n1 * n2 < 4294967296 -> 0 <= n0 -> 0 <= n1 -> 0 <= n2 -> 0 <= l < n0 * n1 * n2 ->
  exists i j k, ijk_to_i_j_k l n0 n1 n2 = Ok (i, j, k) /\ 0 <= i < n0 /\ 0 <= j < n1 /\ 0 <= k < n2 /\ i_j_k_to_ijk n0 n1 n2 i j k = l.
Proof.
  intros H H12 P0 P1 P2 HL. assert (0 < n0) by nia. assert (0 < n1) by nia. assert (0 < n2) by nia.
  assert (U : u32 (n2 * n1) = n2 * n1) by (apply u32_small; nia).
  exists (l / (n2 * n1)), ((l mod (n2 * n1)) / n2), ((l mod (n2 * n1)) mod n2).
  assert (M : 0 <= l mod (n2 * n1) < n2 * n1) by (apply Z.mod_pos_bound; nia).
  assert (I : 0 <= l / (n2 * n1) < n0). { split; [apply Z.div_pos; nia|apply Z.div_lt_upper_bound; nia]. }
  assert (J : 0 <= (l mod (n2 * n1)) / n2 < n1). { split; [apply Z.div_pos; lia|apply Z.div_lt_upper_bound; nia]. }
  assert (K : 0 <= (l mod (n2 * n1)) mod n2 < n2) by (apply Z.mod_pos_bound; lia).
  split; [|split; [exact I|split; [exact J|split; [exact K|]]]].
  - unfold ijk_to_i_j_k. rewrite U. destruct (Z.eqb_spec (n2 * n1) 0) as [E|_]; [nia|]. destruct (Z.eqb_spec n2 0) as [E|_]; [lia|]. reflexivity.
  - destruct (ijk_value n0 n1 n2 ltac:(lia) _ _ _ I J K) as [-> _].
    pose proof (Z.div_mod l (n2 * n1) ltac:(nia)) as D1. pose proof (Z.div_mod (l mod (n2 * n1)) n2 ltac:(lia)) as D2.
    set (a := l / (n2 * n1)) in *. set (m := l mod (n2 * n1)) in *. set (b := m / n2) in *. set (c := m mod n2) in *. nia.
Qed.
(** total number of nodes is the size of the index set *)
Lemma total_nodes n0 n1 n2 : 0 <= n0 -> 0 <= n1 -> 0 < n2 -> n0 * n1 * n2 < 4294967296 -> total_nodes_patch n0 n1 n2 = n0 * n1 * n2.
Proof. intros A B C D. unfold total_nodes_patch. rewrite (u32_small (n0 * n1)) by nia. apply u32_small. nia. Qed.
(** edges *)
Theorem edge_spec n0 n1 n2 i j k :
  n0 * n1 * n2 <= 4294967296 -> n1 * n2 < 4294967296 -> n0 < 4294967296 -> 0 <= i < n0 -> 0 <= j < n1 -> 0 <= k < n2 ->
  exists b, IsOnEdge n0 n1 n2 (i_j_k_to_ijk n0 n1 n2 i j k) = Ok b /\
  (b = true <-> ((i = 0 \/ i = n0 - 1) /\ (j = 0 \/ j = n1 - 1)) \/ ((i = 0 \/ i = n0 - 1) /\ (k = 0 \/ k = n2 - 1)) \/
               ((j = 0 \/ j = n1 - 1) /\ (k = 0 \/ k = n2 - 1))).
Proof.
  intros H H12 H0 Hi Hj Hk. destruct (ijk_there_and_back n0 n1 n2 i j k H H12 Hi Hj Hk) as (E & _).
  unfold IsOnEdge. rewrite E. cbn [obind]. eexists. split; [reflexivity|].
  assert (n1 < 4294967296) by nia. assert (n2 < 4294967296) by nia.
  rewrite (u32_small (n0 - 1)), (u32_small (n1 - 1)), (u32_small (n2 - 1)) by lia.
  destruct (Z.eqb_spec i (n0 - 1)), (Z.eqb_spec i 0), (Z.eqb_spec j (n1 - 1)), (Z.eqb_spec j 0), (Z.eqb_spec k (n2 - 1)), (Z.eqb_spec k 0);
    cbn; (split; [intros; first [discriminate | tauto]|intros; first [reflexivity | exfalso; lia]]).
Qed.

(** *** symmetric pairs *)
Definition tri (n a : Z) : Z := n * a - a * (a - 1) / 2.
Lemma even_prod a : exists q, a * (a - 1) = 2 * q.
Proof.
  destruct (Z.Even_or_Odd a) as [[q ->]|[q ->]]; [exists (q * (2 * q - 1))|exists ((2 * q + 1) * q)]; ring.
Qed.
Lemma tri_step n a : tri n (a + 1) = tri n a + (n - a).
Proof.
  unfold tri. destruct (even_prod a) as (q & E). replace ((a + 1) * (a + 1 - 1)) with (a * (a - 1) + a * 2) by ring.
  rewrite Z.div_add by lia. rewrite E, (Z.mul_comm 2 q), Z.div_mul by lia. ring.
Qed.
Lemma tri_0 n : tri n 0 = 0.
Proof. unfold tri. cbn. ring. Qed.
Lemma tri_mono n : forall m : nat, forall a, 0 <= a -> a + Z.of_nat m <= n -> tri n a <= tri n (a + Z.of_nat m).
Proof.
  induction m as [|m IH]; intros a Ha H; [rewrite Z.add_0_r; lia|].
  replace (a + Z.of_nat (S m)) with (a + Z.of_nat m + 1) by lia. rewrite tri_step. specialize (IH a Ha ltac:(lia)). lia.
Qed.
Lemma tri_le n a b : 0 <= a <= b -> b <= n -> tri n a <= tri n b.
Proof. intros H1 H2. replace b with (a + Z.of_nat (Z.to_nat (b - a))) by lia. apply tri_mono; lia. Qed.
Lemma tri_n n : tri n n = n * (n + 1) / 2.
Proof.
  unfold tri. destruct (even_prod n) as (q & E). rewrite E, (Z.mul_comm 2 q), Z.div_mul by lia.
  replace (n * (n + 1)) with (2 * q + n * 2) by lia. rewrite Z.div_add, (Z.mul_comm 2 q), Z.div_mul by lia. nia.
Qed.
(** the value of the macro is tri n (min) + (max - min) *)
Lemma sym_int_value n i j : 0 <= i -> 0 <= j -> i_j_to_ij_symmetric_int n i j = tri n (Z.min i j) + (Z.max i j - Z.min i j).
Proof.
  intros Hi Hj. unfold i_j_to_ij_symmetric_int, tri. destruct (Z.gtb_spec j i) as [G|G].
  - rewrite Z.min_l, Z.max_r by lia. rewrite Z.quot_div_nonneg by nia. reflexivity.
  - rewrite Z.min_r, Z.max_l by lia. rewrite Z.quot_div_nonneg by nia. reflexivity.
Qed.
Lemma sym_value n i j : 0 <= i < n -> 0 <= j < n -> n * n < 4294967296 ->
  i_j_to_ij_symmetric n i j = tri n (Z.min i j) + (Z.max i j - Z.min i j).
Proof.
  intros Hi Hj HN. assert (HN1 : n < 4294967296) by nia.
  assert (G : forall a b, 0 <= a <= b -> b < n ->
     u32 (u32 (u32 (n * a) - u32 (a * u32 (a - 1)) / 2) + u32 (b - a)) = tri n a + (b - a)).
  { intros a b Ha Hb. assert (T1 : 0 <= tri n a) by (rewrite <- (tri_0 n); apply tri_le; lia).
    assert (T2 : tri n a + (n - a) <= tri n n).
    { rewrite <- tri_step. apply tri_le; lia. }
    assert (T3 : tri n n <= n * n).
    { rewrite tri_n. apply Z.div_le_upper_bound; nia. }
    rewrite (u32_small (n * a)) by nia. rewrite (u32_small (b - a)) by lia.
    assert (E : u32 (a * u32 (a - 1)) = a * (a - 1)).
    { destruct (Z.eq_dec a 0) as [->|N0]; [reflexivity|]. rewrite (u32_small (a - 1)) by lia. assert (a * (a - 1) <= n * n) by (apply Z.mul_le_mono_nonneg; lia). apply u32_small. nia. }
    rewrite E. unfold tri in *. rewrite (u32_small (n * a - _)) by lia. apply u32_small. lia. }
  unfold i_j_to_ij_symmetric. destruct (Z.gtb_spec j i) as [H|H].
  - rewrite Z.min_l, Z.max_r by lia. apply G; lia.
  - rewrite Z.min_r, Z.max_l by lia. apply G; lia.
Qed.
Section Sym.
Variable n : Z.
Definition sym (i j : Z) := tri n (Z.min i j) + (Z.max i j - Z.min i j).
Lemma sym_range i j : 0 <= i < n -> 0 <= j < n -> 0 <= sym i j < n * (n + 1) / 2.
Proof.
  intros Hi Hj. unfold sym. set (a := Z.min i j). set (b := Z.max i j). assert (0 <= a <= b) by lia. assert (b < n) by lia.
  assert (0 <= tri n a) by (rewrite <- (tri_0 n); apply tri_le; lia).
  assert (tri n a + (n - a) <= tri n n) by (rewrite <- tri_step; apply tri_le; lia).
  rewrite <- tri_n. lia.
Qed.
Lemma sym_inj i j i' j' : 0 <= i < n -> 0 <= j < n -> 0 <= i' < n -> 0 <= j' < n ->
  (sym i j = sym i' j' <-> (i = i' /\ j = j') \/ (i = j' /\ j = i')).
Proof.
  intros Hi Hj Hi' Hj'. split.
  - unfold sym. set (a := Z.min i j). set (b := Z.max i j). set (a' := Z.min i' j'). set (b' := Z.max i' j').
    assert (0 <= a <= b /\ b < n) by lia. assert (0 <= a' <= b' /\ b' < n) by lia. intros E.
    assert (a = a').
    { destruct (Z.lt_trichotomy a a') as [L|[L|L]]; [exfalso|exact L|exfalso].
      - assert (tri n a + (n - a) <= tri n a') by (rewrite <- tri_step; apply tri_le; lia). lia.
      - assert (tri n a' + (n - a') <= tri n a) by (rewrite <- tri_step; apply tri_le; lia). lia. }
    rewrite H1 in E. assert (b = b') by lia. lia.
  - unfold sym. intros [(-> & ->)|(-> & ->)]; [reflexivity|]. rewrite (Z.min_comm j'), (Z.max_comm j'). reflexivity.
Qed.
Lemma sym_onto x : 0 <= n -> 0 <= x < n * (n + 1) / 2 -> exists i j, 0 <= i <= j /\ j < n /\ sym i j = x.
Proof.
  intros HN H. rewrite <- tri_n in H.
  assert (G : forall m : nat, Z.of_nat m <= n -> 0 <= x < tri n (Z.of_nat m) -> exists a, 0 <= a < n /\ tri n a <= x < tri n (a + 1)).
  { induction m as [|m IH]; intros L B; [rewrite tri_0 in B; lia|].
    destruct (Z.lt_ge_cases x (tri n (Z.of_nat m))) as [C|C]; [apply IH; lia|]. exists (Z.of_nat m). replace (Z.of_nat (S m)) with (Z.of_nat m + 1) in B by lia. lia. }
  destruct (G (Z.to_nat n)) as (a & Ha & B).
  - lia.
  - rewrite Z2Nat.id by lia. exact H.
  - rewrite tri_step in B. exists a, (a + (x - tri n a)). split; [lia|]. split; [lia|]. unfold sym. rewrite Z.min_l, Z.max_r by lia. lia.
Qed.
End Sym.
Close Scope Z_scope.

(** *** lines *)
Section Lines.
Variable A : Type.
Variable FT : nat -> (nat -> A) -> nat -> A.
Lemma store_other pos out m c x : (forall q, q < m -> pos q <> x) -> store A pos out m c x = c x.
Proof.
  induction m as [|m IH]; intros H; cbn [store]; [reflexivity|]. unfold upd. destruct (Nat.eqb_spec x (pos m)) as [E|_].
  - exfalso. apply (H m); [lia|auto].
  - apply IH. intros q Hq. apply H. lia.
Qed.
Lemma store_at pos out m c q : (forall a b, a < m -> b < m -> pos a = pos b -> a = b) -> q < m -> store A pos out m c (pos q) = out q.
Proof.
  induction m as [|m IH]; intros HI Hq; [lia|]. cbn [store]. unfold upd. destruct (Nat.eqb_spec (pos q) (pos m)) as [E|E].
  - apply HI in E; [subst; reflexivity|lia|lia].
  - apply IH; [intros a b Ha Hb; apply HI; lia|]. destruct (Nat.eq_dec q m); [subst; congruence|lia].
Qed.
Lemma lines_other pos n v B c x : (forall s t, s < B -> t < n -> pos s t <> x) -> lines A FT pos n v B c x = c x.
Proof.
  induction B as [|s IH]; intros H; cbn [lines]; [reflexivity|]. rewrite store_other by (intros q Hq; apply H; lia). apply IH. intros s' t Hs Ht. apply H; lia.
Qed.
Lemma lines_at pos n v B c s t : (forall s t s' t', s < B -> t < n -> s' < B -> t' < n -> pos s t = pos s' t' -> s = s' /\ t = t') ->
  s < B -> t < n -> lines A FT pos n v B c (pos s t) = FT n (fun q => v (pos s q)) t.
Proof.
  induction B as [|b IH]; intros HI Hs Ht; [lia|]. cbn [lines]. destruct (Nat.eq_dec s b) as [->|N].
  - apply (store_at (pos b)); [|exact Ht]. intros a a' Ha Ha' E. apply HI in E; [tauto|lia|lia|lia|lia].
  - rewrite store_other.
    + apply IH; [|lia|exact Ht]. intros s1 t1 s2 t2 H1 H2 H3 H4. apply HI; lia.
    + intros q Hq E. apply HI in E; [|lia|lia|lia|lia]. lia.
Qed.
Lemma ijk_inj n0 n1 n2 i j k i' j' k' : j < n1 -> k < n2 -> j' < n1 -> k' < n2 -> ijk n0 n1 n2 i j k = ijk n0 n1 n2 i' j' k' -> i = i' /\ j = j' /\ k = k'.
Proof.
  unfold ijk. intros Hj Hk Hj' Hk' E.
  assert (E2 : k = k' /\ j + n1 * i = j' + n1 * i').
  { assert (D : (k + n2 * (j + n1 * i)) mod n2 = (k' + n2 * (j' + n1 * i')) mod n2) by (rewrite E; reflexivity).
    rewrite !(Nat.mul_comm n2), !Nat.mod_add, !Nat.mod_small in D by lia. split; [exact D|]. subst k'. nia. }
  destruct E2 as [-> E2].
  assert (D : (j + n1 * i) mod n1 = (j' + n1 * i') mod n1) by (rewrite E2; reflexivity).
  rewrite !(Nat.mul_comm n1), !Nat.mod_add, !Nat.mod_small in D by lia. subst j'. split; [nia|auto].
Qed.
Lemma ijk_lt n0 n1 n2 i j k : i < n0 -> j < n1 -> k < n2 -> ijk n0 n1 n2 i j k < n0 * n1 * n2.
Proof. unfold ijk. intros. assert (j + n1 * i < n0 * n1) by nia. assert (n2 * (j + n1 * i) + n2 <= n2 * (n0 * n1)) by nia. lia. Qed.
Lemma divmod_pair m q r : r < m -> (m * q + r) / m = q /\ (m * q + r) mod m = r.
Proof.
  intros H. split.
  - symmetry. apply (Nat.div_unique _ _ q r); lia.
  - symmetry. apply (Nat.mod_unique _ _ q r); lia.
Qed.
Lemma div_lt_ s a b : s < a * b -> s / b < a.
Proof. intros H. apply Nat.div_lt_upper_bound; lia. Qed.
Lemma line_inj n0 n1 n2 d s t s' t' B n : d < 3 ->
  B = match d with 0 => n1 * n2 | 1 => n2 * n0 | _ => n0 * n1 end -> n = match d with 0 => n0 | 1 => n1 | _ => n2 end ->
  s < B -> t < n -> s' < B -> t' < n -> line_pos n0 n1 n2 d s t = line_pos n0 n1 n2 d s' t' -> s = s' /\ t = t'.
Proof.
  intros Hd -> -> Hs Ht Hs' Ht' E. destruct d as [|[|[|d]]]; [| | |lia]; cbn [line_pos] in E.
  - assert (n2 <> 0) by lia. pose proof (Nat.mod_upper_bound s n2 H). pose proof (Nat.mod_upper_bound s' n2 H).
    apply ijk_inj in E; try assumption; try (apply div_lt_; assumption). pose proof (Nat.div_mod s n2 H). pose proof (Nat.div_mod s' n2 H). destruct E as (-> & E1 & E2). rewrite E1, E2 in H2. split; [congruence|reflexivity].
  - assert (n2 <> 0) by lia. pose proof (Nat.mod_upper_bound s n2 H). pose proof (Nat.mod_upper_bound s' n2 H).
    apply ijk_inj in E; try assumption. pose proof (Nat.div_mod s n2 H). pose proof (Nat.div_mod s' n2 H). destruct E as (E1 & -> & E2). rewrite E1, E2 in H2. split; [congruence|reflexivity].
  - assert (n1 <> 0) by lia. pose proof (Nat.mod_upper_bound s n1 H). pose proof (Nat.mod_upper_bound s' n1 H).
    apply ijk_inj in E; try assumption. pose proof (Nat.div_mod s n1 H). pose proof (Nat.div_mod s' n1 H). destruct E as (E1 & E2 & ->). rewrite E1, E2 in H2. split; [congruence|reflexivity].
Qed.
Theorem line_transform n0 n1 n2 d v c : d < 3 ->
  exists w, coeffs_patch_1d A FT n0 n1 n2 d v c = Ok w /\
  (forall i j k, i < n0 -> j < n1 -> k < n2 ->
     w (ijk n0 n1 n2 i j k) =
     match d with
     | 0 => FT n0 (fun t => v (ijk n0 n1 n2 t j k)) i
     | 1 => FT n1 (fun t => v (ijk n0 n1 n2 i t k)) j
     | _ => FT n2 (fun t => v (ijk n0 n1 n2 i j t)) k
     end) /\
  (forall x, n0 * n1 * n2 <= x -> w x = c x).
Proof.
  intros Hd. destruct d as [|[|[|d]]]; [| | |lia]; cbn [coeffs_patch_1d]; (eexists; split; [reflexivity|]; split).
  - intros i j k Hi Hj Hk. destruct (divmod_pair n2 j k Hk) as [E1 E2].
    replace (ijk n0 n1 n2 i j k) with (line_pos n0 n1 n2 0 (n2 * j + k) i) by (cbn [line_pos]; rewrite E1, E2; reflexivity).
    rewrite lines_at.
    + cbn [line_pos]. rewrite E1, E2. reflexivity.
    + intros s t s' t' A1 A2 A3 A4. eapply (line_inj n0 n1 n2 0); try eassumption; try reflexivity; lia.
    + nia.
    + exact Hi.
  - intros x Hx. apply lines_other. intros s t Hs Ht E. cbn [line_pos] in E. assert (n2 <> 0) by lia.
    pose proof (ijk_lt n0 n1 n2 t (s / n2) (s mod n2) Ht (div_lt_ s n1 n2 Hs) (Nat.mod_upper_bound s n2 H)). lia.
  - intros i j k Hi Hj Hk. destruct (divmod_pair n2 i k Hk) as [E1 E2].
    replace (ijk n0 n1 n2 i j k) with (line_pos n0 n1 n2 1 (n2 * i + k) j) by (cbn [line_pos]; rewrite E1, E2; reflexivity).
    rewrite lines_at.
    + cbn [line_pos]. rewrite E1, E2. reflexivity.
    + intros s t s' t' A1 A2 A3 A4. eapply (line_inj n0 n1 n2 1); try eassumption; try reflexivity; lia.
    + nia.
    + exact Hj.
  - intros x Hx. apply lines_other. intros s t Hs Ht E. cbn [line_pos] in E. assert (n2 <> 0) by lia. rewrite (Nat.mul_comm n2) in Hs.
    pose proof (ijk_lt n0 n1 n2 (s / n2) t (s mod n2) (div_lt_ s n0 n2 Hs) Ht (Nat.mod_upper_bound s n2 H)). lia.
  - intros i j k Hi Hj Hk. destruct (divmod_pair n1 i j Hj) as [E1 E2].
    replace (ijk n0 n1 n2 i j k) with (line_pos n0 n1 n2 2 (n1 * i + j) k) by (cbn [line_pos]; rewrite E1, E2; reflexivity).
    rewrite lines_at.
    + cbn [line_pos]. rewrite E1, E2. reflexivity.
    + intros s t s' t' A1 A2 A3 A4. eapply (line_inj n0 n1 n2 2); try eassumption; try reflexivity; lia.
    + nia.
    + exact Hk.
  - intros x Hx. apply lines_other. intros s t Hs Ht E. cbn [line_pos] in E. assert (n1 <> 0) by lia.
    pose proof (ijk_lt n0 n1 n2 (s / n1) (s mod n1) t (div_lt_ s n0 n1 Hs) (Nat.mod_upper_bound s n1 H) Ht). lia.
Qed.
End Lines.
(** subface_map_invers_id *)
Lemma invers_id_spec id n : forall i, match subface_map_invers_id i id n with
  | Some m => i <= m /\ nth_error id (m - i) = Some n /\ forall q, q < m - i -> nth_error id q <> Some n
  | None => ~ In n id
  end.
Proof.
  induction id as [|x id IH]; intros i; cbn [subface_map_invers_id]; [intros []|].
  destruct (Z.eqb_spec x n) as [->|N].
  - split; [lia|]. rewrite Nat.sub_diag. split; [reflexivity|]. intros q Hq. lia.
  - specialize (IH (S i)). destruct (subface_map_invers_id (S i) id n) as [m|].
    + destruct IH as (A & B & C). split; [lia|]. replace (m - i) with (S (m - S i)) by lia. split; [exact B|].
      intros [|q] Hq; cbn [nth_error]; [congruence|apply C; lia].
    + intros [K|K]; [congruence|exact (IH K)].
Qed.
Lemma line_transform_all :
  (forall A (FT : nat -> (nat -> A) -> nat -> A) n0 n1 n2 d v c, d < 3 ->
  exists w, coeffs_patch_1d A FT n0 n1 n2 d v c = Ok w /\
  (forall i j k, i < n0 -> j < n1 -> k < n2 ->
     w (ijk n0 n1 n2 i j k) =
     match d with
     | 0 => FT n0 (fun t => v (ijk n0 n1 n2 t j k)) i
     | 1 => FT n1 (fun t => v (ijk n0 n1 n2 i t k)) j
     | _ => FT n2 (fun t => v (ijk n0 n1 n2 i j t)) k
     end) /\
  (forall x, n0 * n1 * n2 <= x -> w x = c x)) /\
  (forall A (FT : nat -> (nat -> A) -> nat -> A) n0 n1 n2 d v c, 3 <= d -> coeffs_patch_1d A FT n0 n1 n2 d v c = Abort).
Proof. split; [exact line_transform|]. intros A FT n0 n1 n2 d v c H. destruct d as [|[|[|d]]]; try lia. reflexivity. Qed.
Open Scope Z_scope.
Lemma symmetric_pairs :
  (forall n, n * n < 4294967296 ->
     (forall i j, 0 <= i < n -> 0 <= j < n -> 0 <= i_j_to_ij_symmetric n i j < n * (n + 1) / 2) /\
     (forall i j i' j', 0 <= i < n -> 0 <= j < n -> 0 <= i' < n -> 0 <= j' < n ->
        (i_j_to_ij_symmetric n i j = i_j_to_ij_symmetric n i' j' <-> (i = i' /\ j = j') \/ (i = j' /\ j = i'))) /\
     (forall x, 0 <= n -> 0 <= x < n * (n + 1) / 2 -> exists i j, 0 <= i <= j /\ j < n /\ i_j_to_ij_symmetric n i j = x)) /\
  (forall n i j, 0 <= i < n -> 0 <= j < n -> n * n < 4294967296 -> i_j_to_ij_symmetric_int n i j = i_j_to_ij_symmetric n i j).
Proof.
  split.
  - intros n HN. split; [|split].
    + intros i j Hi Hj. rewrite sym_value by assumption. apply sym_range; assumption.
    + intros i j i' j' H1 H2 H3 H4. rewrite !sym_value by assumption. apply sym_inj; assumption.
    + intros x H0 Hx. destruct (sym_onto n x H0 Hx) as (i & j & A & B & C). exists i, j. split; [exact A|]. split; [exact B|].
      rewrite sym_value by lia. exact C.
  - intros n i j Hi Hj HN. rewrite sym_value by assumption. apply sym_int_value; lia.
Qed.
Close Scope Z_scope.
