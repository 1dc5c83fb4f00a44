(** PhysProofs.v - proofs about PhysModel.v *)
From Coq Require Import Lia.
From Verif Require Import Base TextModel TextToolsModel TextToolsSpec TextToolsProofs RegionModel GenCmd PhysModel.
Open Scope list_scope.
Local Notation low := (map tolower).

(** *** commands *)
Lemma commands_ok n : 0 < n < 43 -> exists f, physics_main n = Ok f.
Proof.
  intros H. do 43 (destruct n as [|n]; [try lia; vm_compute; eexists; reflexivity|]). lia.
Qed.
Lemma commands_abort n : n = 0 \/ 43 <= n -> physics_main n = Abort.
Proof.
  intros [->|H]; [vm_compute; reflexivity|]. do 43 (destruct n as [|n]; [lia|]). destruct n as [|n]; [vm_compute; reflexivity|].
  unfold physics_main. replace (nth_error cmd_names _) with (@None string); [reflexivity|]. symmetry. apply nth_error_None. vm_compute. lia.
Qed.
Definition fn_of (n : nat) : string := match physics_main n with Ok f => f | _ => EmptyString end.
Lemma commands_nodup : NoDup (map fn_of (seq 1 42)).
Proof.
  set (l := map fn_of (seq 1 42)). vm_compute in l. subst l.
  repeat (constructor; [intros I; cbn [In] in I; repeat (destruct I as [I|I]; [discriminate I|]); exact I|]). constructor.
Qed.
Lemma commands_inj a b f : physics_main a = Ok f -> physics_main b = Ok f -> a = b.
Proof.
  intros A B.
  assert (R : forall n, physics_main n = Ok f -> n < 43 /\ n <> 0).
  { intros n E. split.
    - destruct (Nat.lt_ge_cases n 43) as [L|L]; [exact L|]. rewrite commands_abort in E by (right; exact L). discriminate.
    - intros ->. rewrite commands_abort in E by (left; reflexivity). discriminate. }
  destruct (R a A) as [La Na], (R b B) as [Lb Nb].
  assert (D := proj1 (NoDup_nth (map fn_of (seq 1 42)) EmptyString) commands_nodup (a - 1) (b - 1)).
  assert (L : List.length (map fn_of (seq 1 42)) = 42) by reflexivity. rewrite L in D.
  assert (G : forall n, n < 43 -> n <> 0 -> nth (n - 1) (map fn_of (seq 1 42)) EmptyString = fn_of n).
  { intros n Ln Nn. rewrite (nth_indep _ EmptyString (fn_of 0)) by (rewrite L; lia). rewrite map_nth, seq_nth by lia. f_equal. lia. }
  assert (a - 1 = b - 1); [|lia]. apply D; [lia|lia|]. rewrite !G by assumption. unfold fn_of. rewrite A, B. reflexivity.
Qed.

(** *** texts *)
Lemma found_occurs s p : found s p = true <-> occurs p s.
Proof.
  unfold found, occurs. split.
  - destruct (strstr s p) as [[b r]|] eqn:E; [|discriminate]. intros _. apply strstr_app in E. destruct E as [-> E]. apply is_prefix_spec in E.
    destruct E as (q & ->). exists b, q. reflexivity.
  - intros (b & r & ->). clear. induction b as [|c b IH].
    + cbn [List.app]. destruct (p ++ r) eqn:E; cbn [strstr]; rewrite <- ?E; (replace (is_prefix p (p ++ r)) with true by (symmetry; apply is_prefix_spec; exists r; reflexivity)) || idtac.
      * assert (p = []) by (destruct p; [reflexivity|discriminate]). subst p. reflexivity.
      * reflexivity.
    + cbn [List.app strstr]. destruct (is_prefix p (c :: b ++ p ++ r)); [reflexivity|].
      destruct (strstr (b ++ p ++ r) p) as [[u v]|]; [reflexivity|discriminate].
Qed.
Lemma found_false s p : found s p = false <-> ~ occurs p s.
Proof. rewrite <- found_occurs. destruct (found s p); split; congruence. Qed.
Lemma not_found_strstr s p : found s p = false -> strstr s p = None.
Proof. unfold found. destruct (strstr s p) as [[? ?]|]; congruence. Qed.
(** every text is pieces separated by the occurrences of p *)
Lemma strstr_first s p b r : strstr s p = Some (b, r) -> first_at_end p b.
Proof.
  revert b r. induction s as [|c s IH]; intros b r; cbn [strstr].
  - destruct (is_prefix p []) eqn:P; intros H; inversion H; subst. intros b' r' E. assert (p = []) by (destruct p; [reflexivity|discriminate]). subst.
    cbn in E. destruct b'; [reflexivity|discriminate].
  - destruct (is_prefix p (c :: s)) eqn:P.
    + intros H; inversion H; subst. intros b' r' E. cbn [List.app] in E. destruct b' as [|x b']; [reflexivity|].
      apply (f_equal (@List.length ascii)) in E. rewrite !app_length in E. cbn [List.length] in E. lia.
    + destruct (strstr s p) as [[b0 r0]|] eqn:E; intros H; inversion H; subst. specialize (IH _ _ eq_refl).
      intros b' r' E'. destruct b' as [|x b'].
      * exfalso. apply strstr_app in E. destruct E as [-> E]. apply is_prefix_spec in E. destruct E as (q & ->).
        assert (X : is_prefix p (c :: b0 ++ p ++ q) = true); [|congruence]. apply is_prefix_spec. exists (r' ++ q).
        cbn [List.app] in E'. change (c :: b0 ++ p ++ q) with ((c :: b0) ++ p ++ q). rewrite app_assoc. change ((c :: b0) ++ p) with (c :: b0 ++ p). rewrite E', <- app_assoc. reflexivity.
      * cbn [List.app] in E'. injection E' as -> E'. f_equal. exact (IH _ _ E').
Qed.
Lemma split_exists p s : p <> [] -> exists l, l <> [] /\ s = join p l /\ Forall (first_at_end p) (removelast l) /\ ~ occurs p (last l []).
Proof.
  intros Np. remember (List.length s) as n eqn:L. revert s L. induction n as [n IH] using lt_wf_ind. intros s L.
  destruct (strstr s p) as [[b r]|] eqn:E.
  - assert (F := strstr_first _ _ _ _ E). assert (E' := E). apply strstr_app in E'. destruct E' as [-> P]. apply is_prefix_spec in P. destruct P as (q & ->).
    destruct (IH (List.length q)) with (s := q) as (l & Nl & -> & Fl & Ol); [|reflexivity|].
    { rewrite L, !app_length. destruct p; [congruence|]. cbn [List.length]. lia. }
    exists (b :: l). destruct l as [|a l]; [congruence|]. split; [discriminate|]. split; [reflexivity|]. split; [|exact Ol].
    change (removelast (b :: a :: l)) with (b :: removelast (a :: l)). constructor; assumption.
  - exists [s]. split; [discriminate|]. split; [reflexivity|]. split; [constructor|]. cbn [last]. rewrite <- found_occurs. unfold found. rewrite E. discriminate.
Qed.
(** the alternative "(p|q)" where only p occurs *)
Lemma either_left p q s : found s q = false -> rx_either p q s = rx_literal p s.
Proof. intros H. unfold rx_either, rx_literal. rewrite (not_found_strstr _ _ H). destruct (strstr s p) as [[? ?]|]; reflexivity. Qed.
Lemma either_right p q s : found s p = false -> rx_either p q s = rx_literal q s.
Proof. intros H. unfold rx_either, rx_literal. rewrite (not_found_strstr _ _ H). destruct (strstr s q) as [[? ?]|]; reflexivity. Qed.
Lemma found_skipn s q n : found s q = false -> found (skipn n s) q = false.
Proof.
  rewrite !found_false. intros H (b & r & E). apply H. exists (firstn n s ++ b), r. rewrite <- app_assoc, <- E. symmetry. apply firstn_skipn.
Qed.
Lemma replace_ext (P : str -> Prop) rx rx' repl : (forall s, P s -> rx s = rx' s) -> (forall s n, P s -> P (skipn n s)) ->
  forall s, P s -> regex_replace rx repl s = regex_replace rx' repl s.
Proof.
  intros E C. assert (L : forall f c so eo save, P c -> replace_loop rx repl f c so eo save = replace_loop rx' repl f c so eo save).
  { induction f as [|f IH]; intros c so eo save Pc; cbn [replace_loop]; [reflexivity|]. rewrite (E _ (C c eo Pc)).
    destruct (rx' (skipn eo c)) as [[a b]|]; [|reflexivity]. destruct (Nat.eqb (b - a) 0); [reflexivity|]. apply IH, C, Pc. }
  intros s Ps. unfold regex_replace. rewrite (E s Ps). destruct (rx' s) as [[a b]|]; [|reflexivity]. rewrite L by exact Ps. reflexivity.
Qed.
Lemma replace_objects o o' repl l : (o = S_ "NS" /\ o' = S_ "BH") \/ (o = S_ "BH" /\ o' = S_ "NS") -> l <> [] ->
  Forall (first_at_end o) (removelast l) -> ~ occurs o (last l []) -> ~ occurs o' (join o l) ->
  regex_replace (rx_either (S_ "NS") (S_ "BH")) repl (join o l) = Ok (match l with [_] => false | _ => true end, join repl l).
Proof.
  intros H Nl HF HL HO. rewrite <- found_false in HO.
  rewrite (replace_ext (fun s => found s o' = false) _ (rx_literal o)).
  - apply replace_literal; try assumption. destruct H as [[-> _]|[-> _]]; discriminate.
  - intros s Hs. destruct H as [[-> ->]|[-> ->]]; [apply either_left|apply either_right]; exact Hs.
  - intros s n. apply found_skipn.
  - exact HO.
Qed.

(** *** phys_autoindex_stype *)
Lemma has_char_in c s : existsb (ch_eqb c) s = true <-> In c s.
Proof.
  rewrite existsb_exists. unfold ch_eqb. split.
  - intros (x & I & E). destruct (ascii_dec c x); [subst; exact I|discriminate].
  - intros I. exists c. split; [exact I|]. destruct (ascii_dec c c); congruence.
Qed.
Lemma has_char_not c s : ~ In c s -> existsb (ch_eqb c) s = false.
Proof. intros H. destruct (existsb (ch_eqb c) s) eqn:E; [|reflexivity]. exfalso. apply H, has_char_in, E. Qed.
Lemma occurs_sub p q s : occurs p s -> occurs q p -> occurs q s.
Proof. intros (b & r & ->) (b' & r' & ->). exists (b ++ b'), (r' ++ r). rewrite <- !app_assoc. reflexivity. Qed.
Lemma occurs_in c p s : occurs p s -> In c p -> In c s.
Proof. intros (b & r & ->) I. rewrite !in_app_iff. tauto. Qed.
Section Auto.
Variables (k : kind) (ph : phys) (s : str).
Lemma auto_all : phys_autoindex_stype k ph (S_ ".*") = Ok (S_ ".*").
Proof. unfold phys_autoindex_stype. destruct (str_eqb_spec (S_ ".*") (S_ ".*")); congruence. Qed.
Lemma auto_plain : ~ occurs (S_ "NS") s -> ~ occurs (S_ "BH") s -> phys_autoindex_stype k ph s = Ok s.
Proof.
  intros A B. unfold phys_autoindex_stype. destruct (str_eqb s (S_ ".*")); [reflexivity|]. apply found_false in A, B. rewrite A, B. reflexivity.
Qed.
Lemma not_all o : In o [S_ "NS"; S_ "BH"] -> occurs o s -> str_eqb s (S_ ".*") = false.
Proof.
  intros I O. apply str_eqb_neq. intros ->. apply (occurs_in (hd "x"%char o)) in O; [|destruct I as [<-|[<-|[]]]; left; reflexivity].
  destruct I as [<-|[<-|[]]]; cbv in O; repeat (destruct O as [O|O]; [discriminate O|]); exact O.
Qed.
Lemma auto_two : occurs (S_ "NS") s -> occurs (S_ "BH") s -> phys_autoindex_stype k ph s = if kind_eqb k K_SCS_BHNS then Ok s else Abort.
Proof.
  intros A B. unfold phys_autoindex_stype. rewrite (not_all (S_ "NS")) by (cbn; tauto || assumption). apply found_occurs in A, B. rewrite A, B. reflexivity.
Qed.
Variables (o o' : str).
Hypothesis Ho : (o = S_ "NS" /\ o' = S_ "BH") \/ (o = S_ "BH" /\ o' = S_ "NS").
Hypothesis A : occurs o s.
Hypothesis B : ~ occurs o' s.
Lemma auto_one : phys_autoindex_stype k ph s =
  if found s (o ++ ["1"%char]) && found s (o ++ ["2"%char]) then if kind_eqb k (if str_eqb o (S_ "NS") then K_SCS_NSNS else K_SCS_BHBH) then Ok s else Abort
  else if match ph_type ph with NS | BH => true | _ => false end || existsb (ch_eqb "1"%char) s || existsb (ch_eqb "2"%char) s then Ok s
  else match ph_ctype ph with
       | NS | BH => do r <- regex_replace (rx_either (S_ "NS") (S_ "BH")) (S_ (ph_stype ph)) s; if Nat.ltb (List.length (snd r)) 99 then Ok (snd r) else UB
       | _ => Abort end.
Proof.
  unfold phys_autoindex_stype. rewrite (not_all o) by (assumption || (destruct Ho as [[-> _]|[-> _]]; cbn; tauto)).
  assert (N : forall i, found s (o' ++ [i]) = false).
  { intros i. apply found_false. intros O. apply B. apply (occurs_sub _ _ _ O). exists [], [i]. reflexivity. }
  apply found_occurs in A. apply found_false in B. destruct Ho as [[-> ->]|[-> ->]]; rewrite A, B.
  - cbn [negb andb]. change (S_ "BH1") with (S_ "BH" ++ ["1"%char]). rewrite N. cbn [andb]. reflexivity.
  - cbn [negb andb]. change (S_ "BH1") with (S_ "BH" ++ ["1"%char]). change (S_ "NS1") with (S_ "NS" ++ ["1"%char]). rewrite N. cbn [andb].
    change (str_eqb (S_ "BH") (S_ "NS")) with false. cbn iota. change (S_ "BH2") with (S_ "BH" ++ ["2"%char]).
    destruct (found s (S_ "BH" ++ ["1"%char]) && found s (S_ "BH" ++ ["2"%char])); reflexivity.
Qed.
Lemma auto_both : occurs (o ++ ["1"%char]) s -> occurs (o ++ ["2"%char]) s ->
  phys_autoindex_stype k ph s = if kind_eqb k (if str_eqb o (S_ "NS") then K_SCS_NSNS else K_SCS_BHBH) then Ok s else Abort.
Proof. intros X Y. rewrite auto_one. apply found_occurs in X, Y. rewrite X, Y. reflexivity. Qed.
Lemma auto_kept : ~ (occurs (o ++ ["1"%char]) s /\ occurs (o ++ ["2"%char]) s) -> ph_type ph = NS \/ ph_type ph = BH \/ In "1"%char s \/ In "2"%char s ->
  phys_autoindex_stype k ph s = Ok s.
Proof.
  intros X Y. rewrite auto_one.
  replace (found s (o ++ ["1"%char]) && found s (o ++ ["2"%char])) with false.
  2: { symmetry. apply Bool.andb_false_iff. rewrite !found_false. destruct (found s (o ++ ["1"%char])) eqn:E1; [|left; apply found_false; exact E1].
       destruct (found s (o ++ ["2"%char])) eqn:E2; [|right; apply found_false; exact E2]. exfalso. apply X. split; apply found_occurs; assumption. }
  rewrite <- !has_char_in in Y. destruct Y as [->|[->|[->| ->]]]; try reflexivity; rewrite ?Bool.orb_true_r; reflexivity.
Qed.
Lemma auto_free : ~ In "1"%char s -> ~ In "2"%char s -> ph_type ph <> NS -> ph_type ph <> BH ->
  phys_autoindex_stype k ph s = match ph_ctype ph with
       | NS | BH => do r <- regex_replace (rx_either (S_ "NS") (S_ "BH")) (S_ (ph_stype ph)) s; if Nat.ltb (List.length (snd r)) 99 then Ok (snd r) else UB
       | _ => Abort end.
Proof.
  intros N1 N2 T1 T2. rewrite auto_one.
  replace (found s (o ++ ["1"%char])) with false.
  2: { symmetry. apply found_false. intros O. apply N1. apply (occurs_in _ _ _ O). rewrite in_app_iff. cbn. tauto. }
  cbn [andb]. rewrite !has_char_not by assumption. destruct (ph_type ph); try congruence; reflexivity.
Qed.
End Auto.

(** *** indexing twice *)
Lemma occurs2_cons x y c w : occurs [x; y] (c :: w) <-> (c = x /\ exists w', w = y :: w') \/ occurs [x; y] w.
Proof.
  split.
  - intros (b & r & E). destruct b as [|z b]; cbn in E; injection E as -> E; [left; split; [reflexivity|]; exists r; exact E|right; exists b, r; exact E].
  - intros [[-> (w' & ->)]|(b & r & ->)]; [exists [], w'; reflexivity|exists (c :: b), r; reflexivity].
Qed.
Lemma occurs2_skip x y T v : ~ In x T -> occurs [x; y] (T ++ v) -> occurs [x; y] v.
Proof.
  induction T as [|c T IH]; cbn [List.app]; [auto|]. intros N O. apply occurs2_cons in O. destruct O as [[-> _]|O]; [exfalso; apply N; left; reflexivity|].
  apply IH; [|exact O]. intros I. apply N. right. exact I.
Qed.
Lemma occurs2_glue x y u T v : T <> [] -> ~ In x T -> ~ In y T -> ~ occurs [x; y] u -> ~ occurs [x; y] v -> ~ occurs [x; y] (u ++ T ++ v).
Proof.
  intros NT Nx Ny Hu Hv. induction u as [|c u IH]; cbn [List.app].
  - intros O. apply Hv, (occurs2_skip x y T v Nx O).
  - intros O. apply occurs2_cons in O. destruct O as [[-> (w & E)]|O].
    + destruct u as [|c2 u]; cbn [List.app] in E.
      * destruct T as [|c2 T]; [congruence|]. injection E as -> E. apply Ny. left. reflexivity.
      * injection E as -> E. apply Hu. exists [], u. reflexivity.
    + apply IH; [|exact O]. intros O2. apply Hu, occurs2_cons. right. exact O2.
Qed.
Lemma occurs2_join x y T l : T <> [] -> ~ In x T -> ~ In y T -> Forall (fun a => ~ occurs [x; y] a) l -> ~ occurs [x; y] (join T l).
Proof.
  intros NT Nx Ny. induction l as [|a l IH]; intros F.
  - intros (b & r & E). cbn [join] in E. destruct b; discriminate.
  - inversion F as [|? ? Fa Fl]. destruct l as [|b l]; [exact Fa|]. change (join T (a :: b :: l)) with (a ++ T ++ join T (b :: l)).
    apply occurs2_glue; auto.
Qed.
Lemma in_join c T l : In c (join T l) -> In c T \/ exists a, In a l /\ In c a.
Proof.
  induction l as [|a l IH]; [cbn; tauto|]. destruct l as [|b l].
  - cbn [join]. intros I. right. exists a. split; [left; reflexivity|exact I].
  - change (join T (a :: b :: l)) with (a ++ T ++ join T (b :: l)). rewrite !in_app_iff. intros [I|[I|I]].
    + right. exists a. split; [left; reflexivity|exact I].
    + left. exact I.
    + destruct (IH I) as [H|(a' & Ia & H)]; [left; exact H|right; exists a'; split; [right; exact Ia|exact H]].
Qed.
Lemma piece_in_join a T l : In a l -> occurs a (join T l).
Proof.
  induction l as [|b l IH]; [intros []|]. destruct l as [|c l].
  - intros [->|[]]. exists [], []. rewrite app_nil_r. reflexivity.
  - change (join T (b :: c :: l)) with (b ++ T ++ join T (c :: l)). intros [->|I].
    + exists [], (T ++ join T (c :: l)). reflexivity.
    + destruct (IH I) as (u & v & ->). exists (b ++ T ++ u), v. rewrite <- !app_assoc. reflexivity.
Qed.
Lemma first_at_end_free p a : p <> [] -> first_at_end p a -> ~ occurs p a.
Proof.
  intros Np F (b & r & ->). assert (E := F b (r ++ p)). rewrite <- !app_assoc in E. specialize (E eq_refl).
  apply (f_equal (@List.length ascii)) in E. rewrite !app_length in E. destruct p; [congruence|]. cbn [List.length] in E. lia.
Qed.
Lemma pieces_free p l : p <> [] -> l <> [] -> Forall (first_at_end p) (removelast l) -> ~ occurs p (last l []) -> Forall (fun a => ~ occurs p a) l.
Proof.
  intros Np Nl F L. rewrite (app_removelast_last [] Nl). apply Forall_app. split.
  - eapply Forall_impl; [|exact F]. intros a Fa. apply first_at_end_free; assumption.
  - constructor; [exact L|constructor].
Qed.
(** the objects with a number and their texts *)
Definition numbered : list (obj * obj * string) := [(NS1, NS, "NS1"%string); (NS2, NS, "NS2"%string); (BH1, BH, "BH1"%string); (BH2, BH, "BH2"%string)].
Lemma indexed k ph s o o' l : In (ph_type ph, ph_ctype ph, ph_stype ph) numbered -> (o = S_ "NS" /\ o' = S_ "BH") \/ (o = S_ "BH" /\ o' = S_ "NS") ->
  s = join o l -> l <> [] -> Forall (first_at_end o) (removelast l) -> ~ occurs o (last l []) -> occurs o s -> ~ occurs o' s -> ~ In "1"%char s -> ~ In "2"%char s ->
  phys_autoindex_stype k ph s = if Nat.ltb (List.length (join (S_ (ph_stype ph)) l)) 99 then Ok (join (S_ (ph_stype ph)) l) else UB.
Proof.
  intros I Ho -> Nl HF HL A B N1 N2.
  assert (TT : ph_type ph <> NS /\ ph_type ph <> BH /\ (ph_ctype ph = NS \/ ph_ctype ph = BH)).
  { unfold numbered in I. cbn [In] in I. repeat (destruct I as [I|I]; [injection I as <- <- _; repeat split; try discriminate; tauto|]). destruct I. }
  destruct TT as (T1 & T2 & C). rewrite (auto_free k ph _ o o' Ho A B N1 N2 T1 T2). rewrite (replace_objects o o' _ l Ho Nl HF HL B). cbn [obind snd].
  destruct C as [->| ->]; reflexivity.
Qed.
Lemma idem_one k ph s r o o' : In (ph_type ph, ph_ctype ph, ph_stype ph) numbered \/ ~ In (ph_type ph) [NS1; NS2; BH1; BH2] /\ ph_ctype ph = ph_type ph ->
  (o = S_ "NS" /\ o' = S_ "BH") \/ (o = S_ "BH" /\ o' = S_ "NS") -> occurs o s -> ~ occurs o' s ->
  phys_autoindex_stype k ph s = Ok r -> phys_autoindex_stype k ph r = Ok r.
Proof.
  intros W Ho A B E. assert (E' := E). rewrite (auto_one k ph s o o' Ho A B) in E'.
  destruct (found s (o ++ ["1"%char]) && found s (o ++ ["2"%char])).
  { destruct (kind_eqb k (if str_eqb o (S_ "NS") then K_SCS_NSNS else K_SCS_BHBH)); [|discriminate]. injection E' as <-. exact E. }
  destruct (existsb (ch_eqb "1"%char) s) eqn:D1. { rewrite Bool.orb_true_r in E'. cbn [orb] in E'. injection E' as <-. exact E. }
  destruct (existsb (ch_eqb "2"%char) s) eqn:D2. { rewrite Bool.orb_true_r in E'. injection E' as <-. exact E. }
  assert (N1 : ~ In "1"%char s) by (rewrite <- has_char_in; congruence). assert (N2 : ~ In "2"%char s) by (rewrite <- has_char_in; congruence).
  rewrite !Bool.orb_false_r in E'.
  destruct W as [W|[W1 W2]]; [|rewrite W2 in E'; destruct (ph_type ph); try discriminate; injection E' as <-; exact E]. clear E'.
  assert (Np : o <> []) by (destruct Ho as [[-> _]|[-> _]]; intros X; discriminate X).
  destruct (split_exists o s Np) as (l & Nl & Es & HF & HL).
  rewrite (indexed k ph s o o' l W Ho Es Nl HF HL A B N1 N2) in E.
  destruct (Nat.ltb (List.length (join (S_ (ph_stype ph)) l)) 99); [|discriminate]. injection E as <-.
  assert (P := pieces_free o l Np Nl HF HL).
  assert (Pin : forall a, In a l -> occurs a s). { intros a I. rewrite Es. apply piece_in_join, I. }
  assert (P' : Forall (fun a => ~ occurs o' a) l). { apply Forall_forall. intros a I O. apply B. apply (occurs_sub _ _ _ (Pin a I)), O. }
  assert (PD : forall c a, In a l -> In c a -> In c s). { intros c a I J. apply (occurs_in _ _ _ (Pin a I)), J. }
  assert (OT : occurs (S_ (ph_stype ph)) (join (S_ (ph_stype ph)) l)).
  { destruct l as [|a [|b l]]; [congruence| |].
    - exfalso. cbn [join last] in *. subst s. exact (HL A).
    - exists a, (join (S_ (ph_stype ph)) (b :: l)). reflexivity. }
  assert (PN : Forall (fun a => ~ occurs (S_ "NS") a) l) by (destruct Ho as [[-> ->]|[-> ->]]; assumption).
  assert (PB : Forall (fun a => ~ occurs (S_ "BH") a) l) by (destruct Ho as [[-> ->]|[-> ->]]; assumption).
  set (T := S_ (ph_stype ph)) in *.
  assert (G : forall c : ascii, (c = "1" \/ c = "2")%char -> In c (join T l) -> In c T).
  { intros c Hc I. destruct (in_join c T l I) as [H|(a & Ia & Ja)]; [exact H|]. exfalso. assert (X := PD c a Ia Ja). destruct Hc as [->| ->]; tauto. }
  unfold numbered in W. cbn [In] in W.
  assert (K : exists t t' : str, ((t = S_ "NS" /\ t' = S_ "BH") \/ (t = S_ "BH" /\ t' = S_ "NS")) /\ (T = t ++ ["1"%char] \/ T = t ++ ["2"%char])).
  { destruct W as [W|[W|[W|[W|[]]]]]; injection W as _ _ W; unfold T; rewrite <- W;
      [exists (S_ "NS"), (S_ "BH")|exists (S_ "NS"), (S_ "BH")|exists (S_ "BH"), (S_ "NS")|exists (S_ "BH"), (S_ "NS")]; split; first [left; split; reflexivity|right; split; reflexivity|left; reflexivity|right; reflexivity]. }
  destruct K as (t & t' & Ht & HT).
  assert (Dg : exists d : ascii, (d = "1" \/ d = "2")%char /\ T = t ++ [d]) by (destruct HT as [E|E]; [exists "1"%char|exists "2"%char]; split; auto).
  destruct Dg as (d & Hd & HT').
  apply (auto_kept k ph (join T l) t t' Ht).
  - apply (occurs_sub _ _ _ OT). rewrite HT'. exists [], [d]. reflexivity.
  - destruct Ht as [[-> ->]|[-> ->]]; apply occurs2_join; try assumption; rewrite HT'; try discriminate;
      destruct Hd as [->| ->]; cbv; intros X; repeat (destruct X as [X|X]; [discriminate X|]); exact X.
  - intros [X1 X2].
    assert (I1 : In "1"%char T) by (apply G; [left; reflexivity|]; apply (occurs_in _ _ _ X1); rewrite in_app_iff; cbn; tauto).
    assert (I2 : In "2"%char T) by (apply G; [right; reflexivity|]; apply (occurs_in _ _ _ X2); rewrite in_app_iff; cbn; tauto).
    rewrite HT' in I1, I2. destruct Ht as [[-> _]|[-> _]]; destruct Hd as [->| ->]; cbv in I1, I2; intuition discriminate.
  - right. right. assert (I : In d (join T l)) by (apply (occurs_in _ _ _ OT); rewrite HT', in_app_iff; cbn; tauto).
    destruct Hd as [->| ->]; tauto.
Qed.
Lemma idempotent k ph s r : In (ph_type ph, ph_ctype ph, ph_stype ph) numbered \/ ~ In (ph_type ph) [NS1; NS2; BH1; BH2] /\ ph_ctype ph = ph_type ph ->
  phys_autoindex_stype k ph s = Ok r -> phys_autoindex_stype k ph r = Ok r.
Proof.
  intros W E. destruct (found s (S_ "NS")) eqn:FN; destruct (found s (S_ "BH")) eqn:FB.
  - assert (E' := E). apply found_occurs in FN, FB. rewrite auto_two in E' by assumption. destruct (kind_eqb k K_SCS_BHNS); [|discriminate]. injection E' as <-. exact E.
  - apply found_occurs in FN. apply found_false in FB. apply (idem_one k ph s r (S_ "NS") (S_ "BH")); auto.
  - apply found_occurs in FB. apply found_false in FN. apply (idem_one k ph s r (S_ "BH") (S_ "NS")); auto.
  - assert (E' := E). apply found_false in FN, FB. rewrite auto_plain in E' by assumption. injection E' as <-. exact E.
Qed.

(** *** init_physics *)
(** the projects and the systems they are about *)
Definition systems : list (string * (obj * string)) :=
  [("BH_NS_binary_initial_data", (BHNS, "BHNS")); ("NS_NS_binary_initial_data", (NSNS, "NSNS")); ("BH_BH_binary_initial_data", (BHBH, "BHBH"));
   ("Single_BH_initial_data", (SBH, "SBH")); ("Single_NS_initial_data", (SNS, "SNS")); ("Modules_Test", (OBJ_UNDEFINED, "OBJ_UNDEFINED"));
   ("TOV_Star", (OBJ_UNDEFINED, "OBJ_UNDEFINED"))]%string.
(** an object: its kind, its text, the parameter of its place with the words of the places it may have *)
Definition objects : list (obj * (obj * string * option (string * list (string * side)))) :=
  let two := [("left", LEFT); ("right", RIGHT)]%string in
  let three := (two ++ [("center"%string, CENTER)])%list in
  let one := [("center", CENTER)]%string in
  [(NS, (NS, "NS", Some ("grid_set_NS", three))); (NS1, (NS, "NS1", Some ("grid_set_NS1", two))); (NS2, (NS, "NS2", Some ("grid_set_NS2", two)));
   (BH, (BH, "BH", Some ("grid_set_BH", three))); (BH1, (BH, "BH1", Some ("grid_set_BH1", two))); (BH2, (BH, "BH2", Some ("grid_set_BH2", two)));
   (SNS, (SNS, "SNS", Some ("grid_set_NS", one))); (SBH, (SBH, "SBH", Some ("grid_set_BH", one)));
   (BHNS, (BHNS, "BHNS", None)); (BHBH, (BHBH, "BHBH", None)); (NSNS, (NSNS, "NSNS", None))]%string.
Lemma init_ok get t c st place : In (t, (c, st, place)) objects -> init_physics get t =
  match get "project"%string with None => Abort | Some prj =>
  match find (fun r => str_eqb (low prj) (low (S_ (fst r)))) systems with None => Abort | Some (_, (sys, ssys)) =>
  match place with
  | None => Ok (mkphys t c st sys ssys NONE)
  | Some (key, sides) =>
    match get key with None => Abort | Some v =>
    match find (fun w => found (low v) (low (S_ (fst w)))) sides with None => Abort | Some (_, p) => Ok (mkphys t c st sys ssys p) end end
  end end end.
Proof.
  intros I. unfold init_physics, Pgets_n. destruct (get "project"%string) as [prj|]; [|reflexivity]. cbn [obind].
  assert (S1 : system_of prj = match find (fun r => str_eqb (low prj) (low (S_ (fst r)))) systems with None => Abort | Some (_, s) => Ok s end).
  { unfold system_of, systems, strcmp_i. cbv zeta. cbn [find fst]. repeat (destruct (str_eqb (low prj) _); [reflexivity|]). reflexivity. }
  rewrite S1. destruct (find _ systems) as [[n [sys ssys]]|]; [|reflexivity]. cbn [obind].
  assert (T3 : forall v, side3 v = match find (fun w => found (low v) (low (S_ (fst w)))) [("left", LEFT); ("right", RIGHT); ("center", CENTER)]%string with None => Abort | Some (_, p) => Ok p end).
  { intros v. unfold side3, strstr_i, found. cbn [find fst]. do 3 (destruct (strstr (low v) _) as [[? ?]|]; [reflexivity|]). reflexivity. }
  assert (T2 : forall v, side2 v = match find (fun w => found (low v) (low (S_ (fst w)))) [("left", LEFT); ("right", RIGHT)]%string with None => Abort | Some (_, p) => Ok p end).
  { intros v. unfold side2, strstr_i, found. cbn [find fst]. do 2 (destruct (strstr (low v) _) as [[? ?]|]; [reflexivity|]). reflexivity. }
  assert (T1 : forall v, side1 v = match find (fun w => found (low v) (low (S_ (fst w)))) [("center", CENTER)]%string with None => Abort | Some (_, p) => Ok p end).
  { intros v. unfold side1, strstr_i, found. cbn [find fst]. destruct (strstr (low v) _) as [[? ?]|]; reflexivity. }
  unfold objects in I. cbn [In List.app] in I.
  repeat (destruct I as [I|I]; [injection I as <- <- <- <-; try reflexivity;
    (destruct (get _) as [v|]; [|reflexivity]; cbn [obind]; rewrite ?T3, ?T2, ?T1; destruct (find _ _) as [[? ?]|]; reflexivity)|]).
  destruct I.
Qed.
Lemma init_shape get t ph : init_physics get t = Ok ph -> ph_type ph = t /\
  (In (ph_type ph, ph_ctype ph, ph_stype ph) numbered \/ ~ In (ph_type ph) [NS1; NS2; BH1; BH2] /\ ph_ctype ph = ph_type ph).
Proof.
  intros E. assert (H : t = OBJ_UNDEFINED \/ exists c st place, In (t, (c, st, place)) objects).
  { destruct t; [left; reflexivity|..]; right; do 3 eexists; unfold objects; cbn [In List.app]; repeat (first [left; reflexivity|right]). }
  destruct H as [->|(c & st & place & I)].
  { exfalso. unfold init_physics in E. destruct (Pgets_n get "project"); try discriminate. cbn [obind] in E. destruct (system_of a) as [[? ?]| |]; discriminate. }
  rewrite (init_ok get t c st place I) in E.
  assert (P : exists sys ssys p, ph = mkphys t c st sys ssys p).
  { destruct (get "project"%string); [|discriminate]. destruct (find _ systems) as [[? [sys ssys]]|]; [|discriminate].
    destruct place as [[key sides]|]; [|injection E as <-; eauto]. destruct (get key); [|discriminate]. destruct (find _ sides) as [[? p]|]; [|discriminate].
    injection E as <-. eauto. }
  destruct P as (sys & ssys & p & ->). cbn [ph_type ph_ctype ph_stype]. split; [reflexivity|].
  unfold objects in I. cbn [In List.app] in I.
  repeat (destruct I as [I|I]; [injection I as <- <- <- <-; unfold numbered; cbn [In]; first [left; solve [repeat (first [left; reflexivity|right])]
    |right; split; [intros X; repeat (destruct X as [X|X]; [discriminate X|]); exact X|reflexivity]]|]). destruct I.
Qed.

(** *** words *)
Definition par_is (src : string -> option str) (n w : string) : Prop := exists v, src n = Some v /\ low v = low (S_ w).
Lemma is_p_true src n w : is_p src n w = Ok true <-> par_is src n w.
Proof.
  unfold is_p, Pgets_n, par_is. destruct (src n) as [v|]; cbn [obind].
  - unfold strcmp_i. destruct (str_eqb_spec (low v) (low (S_ w))); split; intros H; try discriminate; [exists v; auto|reflexivity|].
    destruct H as (v' & H & ?). injection H as <-. congruence.
  - split; [discriminate|intros (v & H & _); discriminate].
Qed.
Lemma is_p_ub src n w : is_p src n w <> UB.
Proof. unfold is_p, Pgets_n. destruct (src n); discriminate. Qed.
Lemma checked_ok {A} par (r : outcome A) f : star_checked par r = Ok f <->
  par_is par "type" "NS" /\ par_is par "NS_fluid" "ideal_fluid" /\ par_is par "NS_gConf" "general" /\ r = Ok f.
Proof.
  unfold star_checked. rewrite <- !is_p_true. destruct (is_p par "type" "NS") as [[]| |]; cbn [obind]; try (split; [discriminate|intros (H & _); discriminate]).
  destruct (is_p par "NS_fluid" "ideal_fluid") as [[]| |]; cbn [obind andb]; try (split; [discriminate|intros (_ & H & _); discriminate]).
  destruct (is_p par "NS_gConf" "general") as [[]| |]; cbn [obind]; try (split; [discriminate|intros (_ & _ & H & _); discriminate]). tauto.
Qed.
(** what a command does for a star *)
Definition star_table : list (string * string) :=
  [("STAR_TUNE_EULER_CONST", "star_NS_ifluid_gConf_find_EulerC_fix_baryon_mass"); ("STAR_EXTRAPOLATE_MATTERS", "star_NS_idealfluid_extrapolate_matter_fields");
   ("STAR_FIND_SURFACE", "star_NS_find_star_surface"); ("STAR_TUNE_FORCE_BALANCE", "star_NS_idealfluid_gConf_force_balance");
   ("STAR_TUNE_CENTER", "star_NS_keep_center_fixed"); ("STAR_ADD_FIELDS", "star_NS_idealfluid_gConf_add_fields")]%string.
Lemma star_ok par get cmd f : star_action par get cmd = Ok f <->
  (cmd = "STAR_START"%string /\ f = "star_start_off_TOV"%string /\ par_is get "start_off" "TOV") \/
  (In (cmd, f) star_table /\ par_is par "type" "NS" /\ par_is par "NS_fluid" "ideal_fluid" /\ par_is par "NS_gConf" "general" /\
   (cmd = "STAR_TUNE_EULER_CONST"%string -> par_is get "Euler_const_criteria" "fix_baryonic_mass")).
Proof.
  unfold star_action, star_table. cbn [In].
  repeat match goal with |- context [if String.eqb cmd ?c then _ else _] => destruct (String.eqb_spec cmd c) as [->|?] end;
    rewrite ?checked_ok.
  - split.
    + intros (A & B & C & D). right. destruct (is_p get _ _) as [[]| |] eqn:Q; try discriminate. injection D as <-.
      split; [left; reflexivity|]. repeat (split; [assumption|]). intros _. apply is_p_true, Q.
    + intros [(H & _)|(H & A & B & C & D)]; [discriminate|]. repeat (split; [assumption|]). specialize (D eq_refl). apply is_p_true in D. rewrite D. cbn [obind].
      destruct H as [H|H]; [injection H as <-; reflexivity|]. repeat (destruct H as [H|H]; [discriminate H|]). destruct H.
  - split.
    + intros (A & B & C & D). right. injection D as <-. split; [tauto|]. repeat (split; [assumption|]). discriminate.
    + intros [(H & _)|(H & A & B & C & D)]; [discriminate|]. repeat (split; [assumption|]).
      repeat (destruct H as [H|H]; [first [discriminate H|injection H as <-; reflexivity]|]). destruct H.
  - split.
    + intros (A & B & C & D). right. injection D as <-. split; [tauto|]. repeat (split; [assumption|]). discriminate.
    + intros [(H & _)|(H & A & B & C & D)]; [discriminate|]. repeat (split; [assumption|]).
      repeat (destruct H as [H|H]; [first [discriminate H|injection H as <-; reflexivity]|]). destruct H.
  - split.
    + intros (A & B & C & D). right. injection D as <-. split; [tauto|]. repeat (split; [assumption|]). discriminate.
    + intros [(H & _)|(H & A & B & C & D)]; [discriminate|]. repeat (split; [assumption|]).
      repeat (destruct H as [H|H]; [first [discriminate H|injection H as <-; reflexivity]|]). destruct H.
  - split.
    + intros (A & B & C & D). right. injection D as <-. split; [tauto|]. repeat (split; [assumption|]). discriminate.
    + intros [(H & _)|(H & A & B & C & D)]; [discriminate|]. repeat (split; [assumption|]).
      repeat (destruct H as [H|H]; [first [discriminate H|injection H as <-; reflexivity]|]). destruct H.
  - split.
    + intros (A & B & C & D). right. injection D as <-. split; [tauto|]. repeat (split; [assumption|]). discriminate.
    + intros [(H & _)|(H & A & B & C & D)]; [discriminate|]. repeat (split; [assumption|]).
      repeat (destruct H as [H|H]; [first [discriminate H|injection H as <-; reflexivity]|]). destruct H.
  - split.
    + intros H. left. destruct (is_p get _ _) as [[]| |] eqn:Q; try discriminate. injection H as <-. apply is_p_true in Q. tauto.
    + intros [(_ & -> & H)|(H & _)].
      * apply is_p_true in H. rewrite H. reflexivity.
      * repeat (destruct H as [H|H]; [discriminate H|]). destruct H.
  - split; [discriminate|]. intros [(H & _)|(H & _)]; [congruence|].
    repeat (destruct H as [H|H]; [injection H as H _; congruence|]). destruct H.
Qed.
(** what a command does for a black hole: command, needed words of the object's parameters, function *)
Definition bh_table : list (string * list (string * string) * string) :=
  [("BH_TUNE_RADIUS", [("tune_BH_radius_criteria", "fix_irreducible_mass"); ("surface_type", "perfect_s2")], "bh_tune_BH_radius_irreducible_mass_perfect_s2");
   ("BH_TUNE_SPIN", [], "bh_tune_BH_chi_simple");
   ("BH_FIND_SURFACE", [("surface_type", "perfect_s2")], "bh_find_bh_surface_perfect_s2"); ("BH_FIND_SURFACE", [("surface_type", "KerrSchild_s2")], "bh_find_bh_surface_KerrSchild_s2");
   ("BH_START", [("start_off", "KerrSchild"); ("surface_type", "perfect_s2")], "bh_start_off_KerrSchild_perfect_s2");
   ("BH_START", [("start_off", "KerrSchild"); ("surface_type", "KerrSchild_s2")], "bh_start_off_KerrSchild_general_s2");
   ("BH_START", [("start_off", "CloseKerrSchild"); ("surface_type", "perfect_s2")], "bh_start_off_CloseKerrSchild_perfect_s2");
   ("BH_START", [("start_off", "IsoSchild"); ("surface_type", "perfect_s2")], "bh_start_off_IsoSchild_perfect_s2");
   ("BH_START", [("start_off", "PGSchild"); ("surface_type", "perfect_s2")], "bh_start_off_PGSchild_perfect_s2")]%string.

Lemma low_same v w : strcmp_i (Some v) (Some (S_ w)) = true <-> low v = low (S_ w).
Proof. unfold strcmp_i. destruct (str_eqb_spec (low v) (low (S_ w))); split; congruence. Qed.
Lemma par_is_eq src n v w : src n = Some v -> (par_is src n w <-> low v = low (S_ w)).
Proof. intros E. unfold par_is. split; [intros (v' & E' & H); congruence|intros H; exists v; auto]. Qed.
Definition row_ok (get : string -> option str) (cmd f : string) (r : string * list (string * string) * string) : Prop :=
  let '(c, ws, g) := r in cmd = c /\ f = g /\ Forall (fun w => par_is get (fst w) (snd w)) ws.
Lemma surface_find v (l : list (string * string)) f : NoDup (map (fun e => low (S_ (fst e))) l) ->
  match find (fun e => strcmp_i (Some v) (Some (S_ (fst e)))) l with Some e => Ok (snd e) | None => Abort end = Ok f <->
  exists w, In (w, f) l /\ low v = low (S_ w).
Proof.
  intros ND. induction l as [|[w g] l IH]; cbn [find fst snd].
  - split; [discriminate|intros (w & [] & _)].
  - cbn [map fst] in ND. inversion ND as [|? ? Nin ND']; subst. destruct (strcmp_i (Some v) (Some (S_ w))) eqn:E.
    + apply low_same in E. split.
      * intros H. injection H as <-. exists w. split; [left; reflexivity|exact E].
      * intros (w' & [I|I] & H); [injection I as <- <-; reflexivity|]. exfalso. apply Nin. apply in_map_iff. exists (w', f). cbn. split; [congruence|exact I].
    + rewrite (IH ND'). split.
      * intros (w' & I & H). exists w'. split; [right; exact I|exact H].
      * intros (w' & [I|I] & H); [injection I as <- <-; apply low_same in H; congruence|]. exists w'. auto.
Qed.
Lemma bh_ok get cmd f : bh_action get cmd = Ok f <-> Exists (row_ok get cmd f) bh_table.
Proof.
  assert (ND1 : forall a : string, NoDup (map (fun e : string * string => low (S_ (fst e))) [("perfect_s2"%string, a)])).
  { intros a. cbn. constructor; [intros []|constructor]. }
  assert (ND2 : forall a b : string, NoDup (map (fun e : string * string => low (S_ (fst e))) [("perfect_s2"%string, a); ("KerrSchild_s2"%string, b)])).
  { intros a b. cbn. constructor; [intros [X|[]]; discriminate X|]. constructor; [intros []|constructor]. }
  unfold bh_action, bh_table, Pgets_n. rewrite !Exists_cons, Exists_nil. unfold row_ok.
  assert (One : forall n w, Forall (fun e => par_is get (fst e) (snd e)) [(n, w)] <-> par_is get n w).
  { intros n w. split; [intros H; inversion H; assumption|intros H; constructor; [exact H|constructor]]. }
  assert (Two : forall n w n' w', Forall (fun e => par_is get (fst e) (snd e)) [(n, w); (n', w')] <-> par_is get n w /\ par_is get n' w').
  { intros n w n' w'. split; [intros H; inversion H as [|? ? ? H2]; inversion H2; auto|intros [H H2]; constructor; [exact H|constructor; [exact H2|constructor]]]. }
  rewrite !One, !Two. clear One Two.
  assert (S1 : forall a, (do v <- match get "surface_type"%string with Some v => Ok v | None => Abort end;
      match find (fun e : string * string => strcmp_i (Some v) (Some (S_ (fst e)))) [("perfect_s2"%string, a)] with Some e => Ok (snd e) | None => Abort end) = Ok f <->
      f = a /\ par_is get "surface_type" "perfect_s2").
  { intros a. unfold par_is. destruct (get "surface_type"%string) as [v|]; cbn [obind].
    - rewrite (surface_find v _ f (ND1 a)). split.
      + intros (w & [I|[]] & H). injection I as <- <-. split; [reflexivity|exists v; auto].
      + intros (-> & v' & E & H). injection E as <-. exists "perfect_s2"%string. split; [left; reflexivity|exact H].
    - split; [discriminate|intros (_ & v & E & _); discriminate]. }
  assert (S2 : forall a b, (do v <- match get "surface_type"%string with Some v => Ok v | None => Abort end;
      match find (fun e : string * string => strcmp_i (Some v) (Some (S_ (fst e)))) [("perfect_s2"%string, a); ("KerrSchild_s2"%string, b)] with Some e => Ok (snd e) | None => Abort end) = Ok f <->
      (f = a /\ par_is get "surface_type" "perfect_s2") \/ (f = b /\ par_is get "surface_type" "KerrSchild_s2")).
  { intros a b. unfold par_is. destruct (get "surface_type"%string) as [v|]; cbn [obind].
    - rewrite (surface_find v _ f (ND2 a b)). split.
      + intros (w & [I|[I|[]]] & H); injection I as <- <-; [left|right]; (split; [reflexivity|exists v; auto]).
      + intros [(-> & v' & E & H)|(-> & v' & E & H)]; injection E as <-; eexists; (split; [|exact H]); cbn; auto.
    - split; [discriminate|intros [(_ & v & E & _)|(_ & v & E & _)]; discriminate]. }
  repeat match goal with |- context [if String.eqb cmd ?c then _ else _] => destruct (String.eqb_spec cmd c) as [->|?] end.
  - destruct (is_p get "tune_BH_radius_criteria" "fix_irreducible_mass") as [[]| |] eqn:Q; cbn [obind]; rewrite ?S1.
    + apply is_p_true in Q. intuition (try discriminate; try congruence).
    + rewrite <- (is_p_true get "tune_BH_radius_criteria"), Q. intuition (try discriminate; try congruence).
    + rewrite <- (is_p_true get "tune_BH_radius_criteria"), Q. intuition (try discriminate; try congruence).
    + rewrite <- (is_p_true get "tune_BH_radius_criteria"), Q. intuition (try discriminate; try congruence).
  - split; [intros H; injection H as <-; right; left; auto|]. intuition (try discriminate; try congruence).
  - rewrite S2. intuition (try discriminate; try congruence).
  - destruct (get "start_off"%string) as [v|] eqn:G.
    + cbn [obind]. rewrite !(par_is_eq get "start_off" v _ G). cbv zeta.
      destruct (strcmp_i (Some v) (Some (S_ "KerrSchild"))) eqn:E1; [apply low_same in E1; rewrite S2, E1; cbn; intuition (try discriminate; try congruence)|].
      destruct (strcmp_i (Some v) (Some (S_ "CloseKerrSchild"))) eqn:E2; [apply low_same in E2; rewrite S1, E2; cbn; intuition (try discriminate; try congruence)|].
      destruct (strcmp_i (Some v) (Some (S_ "IsoSchild"))) eqn:E3; [apply low_same in E3; rewrite S1, E3; cbn; intuition (try discriminate; try congruence)|].
      destruct (strcmp_i (Some v) (Some (S_ "PGSchild"))) eqn:E4; [apply low_same in E4; rewrite S1, E4; cbn; intuition (try discriminate; try congruence)|].
      rewrite <- !low_same, E1, E2, E3, E4. intuition (try discriminate; try congruence).
    + cbn [obind]. split; [discriminate|]. intros H. exfalso. unfold par_is in H. rewrite G in H.
      repeat (destruct H as [H|H]; [destruct H as (? & ? & H); try discriminate; try (destruct H as ((? & ? & ?) & _); discriminate)|]); try exact H.
  - split; [discriminate|]. intuition congruence.
Qed.
Lemma Tij_ok par cmd f : Tij_action par cmd = Ok f <->
  (par_is par "NS_decomposition" "XCTS" /\ par_is par "NS_gConf" "general") /\
  ((cmd = "STRESS_ENERGY_ADD_FIELDS"%string /\ f = "Tij_NS_idealfluid_XCTS_gConf_add_fields"%string) \/
   (cmd = "STRESS_ENERGY_UPDATE"%string /\ f = "Tij_NS_idealfluid_XCTS_gConf_update"%string /\ par_is par "fluid" "NS_ideal_fluid")).
Proof.
  unfold Tij_action. rewrite <- !is_p_true. cbv zeta.
  repeat match goal with |- context [if String.eqb cmd ?c then _ else _] => destruct (String.eqb_spec cmd c) as [->|?] end.
  - destruct (is_p par "NS_decomposition" "XCTS") as [[]| |]; cbn [obind andb]; try (intuition discriminate).
    destruct (is_p par "NS_gConf" "general") as [[]| |]; cbn [obind andb]; try (intuition discriminate). intuition (try discriminate; try congruence).
  - destruct (is_p par "fluid" "NS_ideal_fluid") as [[]| |]; cbn [obind andb]; try (intuition discriminate).
    destruct (is_p par "NS_decomposition" "XCTS") as [[]| |]; cbn [obind andb]; try (intuition discriminate).
    destruct (is_p par "NS_gConf" "general") as [[]| |]; cbn [obind andb]; try (intuition discriminate). intuition (try discriminate; try congruence).
  - intuition (try discriminate; try congruence).
Qed.
